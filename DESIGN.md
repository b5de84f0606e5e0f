# Formal model of Breakthrough-Energy/reliability-assessment in Rocq (Coq 8.16.1)

## 1. What is modelled and how

The Python package (`/repo/reliabilityassessment`) is a sequential Monte-Carlo reliability
simulator: an event calendar kept as a linked list in a flat array, handlers for hour/week/
season/year events, random sampling of unit and line states, a DC network solver, loss
statistics, convergence test, report, and a data-preparation pipeline.

Every modelled Python function is a shallow, executable Gallina function mirroring the Python
branch by branch; in-place mutation becomes returning the new value; Python exceptions become
values (`res A := Ok a | Err e`).  Every definition carries a comment with the file and lines it
models and the simplifications made.

Conventions

* **Numbers.**  Python/numpy floats are modelled by exact canonical rationals `Qc` (Leibniz
  equality, computable).  NaN, infinities and overflow of floats are *not* modelled; rounding is modelled
  in `FloatModel.v` only, for the functions listed under C92-C99 (and in `FloatStatModel.v`, C113, `FloatConvModel.v`, C122) (round to nearest even on 53-bit
  significands with gradual underflow; `C92_arithmetic` states it is a nearest binary64 number; `VecFloat.v`
  compares it with CPython on 267 operations), and those properties say how far the exact results carry over.
  `float('-inf')` used as a "no maximum yet" marker is modelled with `option`.  Integers are `Z`;
  int32 wrap-around is written explicitly where the program relies on it (random seeds).
  `int(x)`/`astype(int)` is truncation towards zero.  The only irrational operation, `pow(x,0.5)`
  in the convergence test and the report, is modelled by its squared characterisation (see C44/C48).
* **Arrays.**  Python indexing semantics (negative indices count from the end, out of range raises
  `IndexError`) is modelled where an index is data dependent (event array, unit lists); where the
  code's shapes make all indices in range by construction, total accessors are used and the shape
  hypotheses appear in the theorem.
* **Aliasing.**  numpy in-place updates of arguments are modelled by returning the new array and
  threading it, scalars rebound inside a callee are *not* threaded (this matters: C42).
* **Printing and files** are not modelled, except that the numbers of the final report and of the annual tables and the checkpoint's
  contents are values.
* **Loops** with data-dependent length are recursion on fuel returning `Err OutOfFuel`; theorems
  about results exclude that value or prove it unreachable.

Files (`rocq/theories`): `*Model.v` – definitions only; `*Spec.v` – independent specification
vocabulary used in theorem statements; `*Proofs.v` – lemmas; `Properties*.v` – only the property
theorems, each closed by `exact`, with `Print Assumptions` beneath and non-vacuity examples next to
them.

## 2. Trusted base

* Coq 8.16.1's kernel (and `vm_compute`), the stdlib, and `coqc`.
* Assumptions: see section 4 (`Print Assumptions` output for the property theorems).
* The correspondence between Python and the Gallina model is by reading (the code is not run here),
  and supported by the repository's own unit tests: `Vec*.v` (written by `tools/mkvectors.py` from the
  tests' data files) evaluates the model inside Coq on the tests' inputs and compares with the results
  the tests expect, with the tests' tolerances: `filem`, `remove`, `initl`, `week`, `admitb`, `admitr`,
  `theta`, `thetac`, `ximpa`, `ximpar`, `flo`, `assign`, `tm1`, `tm2`, `transm` (10 cases, with the linear
  program), `dgefa`, `dgeco`, `dgedi`, `rm`, `rc`, `mc`, `connls`, `conls`, `linp`, `net`, `hrstat`, `pkstat`,
  `cvchk`, `year` with `report`, `sumcap`, `findtn`, `wpeakf`, `dpeak`, `plhr`, `gsm`, `pmlolp`, `pmsc`, `smaint`,
  `readInputB` + `pind` + `datax` (two data sets), reading of the load file, `resca`.  All agree.  These are
  tests of the model, not properties; no theorem depends on them.  (`Vec.v` and the `Vec*.v` definitions
  model no code of the repository.)
* numpy/Python primitives: their meaning as encoded in `Base.v` (sum, argmax = first maximum,
  reshape order, boolean masks, truncation, negative indices, `np.linalg.inv` as *a* matrix with
  the inverse property – it is an argument of the model, never an axiom).

## 3. Properties: what is modelled and how it is proved

| id | modelled | proof method |
|----|----------|--------------|
| C01–C03 | `filem`, `remove` on the flat array with Python index semantics | representation invariant (chain of slots), refinement to a sorted list |
| C04 | sequences of operations from `initfl` | bounded-by-capacity theorem for schedule-only histories, strict take/schedule alternation; general claim refuted by witness |
| C05 | `initl`, `_initl` | cell-wise equality for every step; refutation for other season boundaries |
| C06–C09 | `contrl`, `events`, rescheduling part of the handlers, other effects abstract | loop invariant by induction on iterations; closed form of the agenda |
| C10 | `week` | direct, with independent membership specification |
| C11, C12 | loop + `week`/`quartr` | closed form of the history; refuted with witness, true shifted statement proved |
| C13 | `seeder`, RNG of `gstate`, `lstate` with int32 wrap | modular arithmetic, induction on draws |
| C14–C16 | `gstate`, `lstate`, alternatives | case analysis, modular invariant (multiples of 64) for C15 |
| C17, C18 | `sumcap`, `findtn` | sum exchange |
| C19–C24 | `xporta`,`_xporta`,`xports`,`dpeak`,`_dpeak`,`wpeakf`,`_wpeakf`,`plhr`,`xldnew`(numeric part),`resca`,`_resca` | list induction, argmax characterisation |
| C25 | `datax` FCTERR, `findld` | order reasoning |
| C26–C30 | `admitb`,`admitm`,`admref`,`admitr`,`ximpa`,`ximpar`,`theta`,`thetac`,`flo`,`assign`,`_assign` | finite sums, field identities |
| C31–C34 | `tm2`, `transm`, `tm1` | path analysis; refutations by witness |
| C35 | `dgefa`, `dgedi` | LU invariant |
| C59, C60 | `tm2`, `transm`, `line_rows`, `sched_rows` | accepted direct solutions; refutation by witness |
| C61 | `dgefa` INFO | diagonal invariant of the factorisation |
| C62 | `year` annual printing: which names are assigned before use | case analysis |
| C36–C39 | `hrstat`,`_hrstat`,`pkstat`,`_pkstat` | list induction, histories by fold |
| C40–C47 | `year`, `cvchk`, `intm` | record update, induction on years |
| C48–C49 | `report` (numbers) | sums, witness |
| C50–C52, C63 | `hour` (inversion and LP branch are arguments) | path analysis; witnesses |
| C64, C65, runs in C13, C50, C51 | `narpMain` after reading the data: seeds, loop, `hour`, `year`, report, over one state | invariant over the event log; witness run of two years |
| C53 | `smaint` table construction | invariant over units |
| C54–C56, C70, C72 | `pind`, `datax` | list induction; witness |
| C66, C67 | `pmsc` around an arbitrary heuristic (the table of outage probabilities, the choice of weeks and the branch for predetermined units are parameters: they are never reached for inputs as `datax` makes them), `smaint` | the sorted arrays hold a row of zeros and all units but the last; every plant has one unit, so the scheduling loop is empty; what is written back is proved |
| C66, C67, any table | `smaint`, `pmsc` on tables of any kind (several units per plant, any flags and windows), with the scheduling loop as it is (MaintAnyModel: a float bound of `range` raises TypeError); MaintAny, PropertiesMaint | the branch for predetermined units is unreachable (position 0 of the sorted arrays is a row of zeros), the loop leaves ID1 alone or fails; invariant of the write-back: every row kept, or the first of its area restarted |
| C68, C69, C71, user seasons in C12 | `dataf1`, `input_processing`, `xldnew` from card records and load-file lines to the simulation's input | composition; reading of csv text not modelled |
| C73–C81 | `connls`, `linp` (`rm`, `rc`, `mc`, pivoting, tolerances, re-inversion by `linpack`), `net`, `_net`, the LP branch of `tm2` incl. IOI; files LpModel … LpTransm, PropertiesLp | simplex invariant (basis inverse, right sides, costs), weak duality, pigeonhole and bisimulation for termination, reading of the variables as a dispatch (`LpSpec`); passes of the outer loop bounded by fuel, all results for every fuel |
| C75, own networks | `transm`, `narp` with the solver for every number of passes (LpOrbit, LpNever, PropertiesNever) | a checked repetition of the pivot sequence; parametricity of `narp` in the solver and the inversion: where two solvers both answer they agree |
| C82, C83 | what `dataf1` delivers in SUSTAT and LINENO (PropertiesData) | composition of C20, C24, C54, C69; uniqueness of the peak day; induction over the line cards |
| C84, C90 | `float`, `strip`, `split`, `readlines` on Latin-1 texts; `read_meta`, `parse_line` (ReadModel) | grammar of numerals and of spaced lines (ReadSpec) shown equivalent to the scanner, by induction over the text |
| C85, C86 | `readInputB` on tables as pandas delivers them: `read_cards` (ReadModel) | `read_cards f = Ok c <-> says f c`, card by card (ReadTables) |
| C87-C89 | the same, and `dataf1_files` | refuted: tables that agree outside the columns in question give the same result |
| C91 | `dataf1_files`: files to `narp`'s input | composition of C85, C90 and C71 |
| C92 | `contrl`, `events`, handlers' rescheduling, day and year number with every float operation rounded (`FloatModel.v`) | every clock value is a half-hour multiple below 2^53, hence representable: step-wise equality with the exact loop |
| C93 | `hour.py` margin test rounded | monotonicity of rounding, neighbours of -1; Sterbenz-free sign argument on the common grid; refutation by witness |
| C94, C95 | sums over any bracketing tree and permutation; `sumcap`, `findtn` loops rounded | multiples of 2^-k below 2^53-k are representable; induction on the tree with (1+2^-53)^depth |
| C96, C98 | `xldnew` scaling, `datax` factors, `findld` rounded | monotonicity and exactness at 1 |
| C97 | `gstate`, `lstate` rounded | seeds are integers; monotone decision has a threshold; error of 0.4656613e-9 * s |
| C99 | `xporta`, `xports` rounded | C94's exactness cell by cell, C19; refuted in general by (0.1+0.2)-0.2 |
| C100 | `conls` (LpShareModel) | rows as columns of body plus slack; solutions and dispatches translated both ways; C73/C74's solver invariant. Refuted: the area limits are exchanged, negative capacity breaks the starting basis |
| C101 | `narp`, `hour`, `transm` (CauseSpec, CauseProofs, CauseRun, PropertiesCause) | the failing event is pinned by the loop invariant (`step_spec`); each handler's error paths are shown impossible from the completeness of the tables, non-negativity of the statistics along the run and nonsingularity of the base network, except the four causes listed. `inv` inverts what has an inverse; `lp` is arbitrary |
| C102 | `read_cards`, `leei_lines`, `dataf1`, `narp`, `report` (EndSpec, EndProofs, PropertiesEnd) | the form of the prepared input (PrepProofs) gives the completeness conditions of C101: line table, first admittances, connectedness by induction over `linked`, outage rows; composed with C91, C101, C65, C64 |
| C103 | `narp`, `gstate`, `dataf1` (EndSpec, ShortProofs, PropertiesShort) | trace invariants: planned status 0/1, ratings 0 or from the table; hence capacities at most the ratings (C14), the area short at every level, C101_only_cause excludes every failure; C65 for the report |
| C104 | `tm2`, LP branch, `hour` (MonoSpec, MonoProofs, PropertiesMono) | a dispatch of the tighter hour is one of the eased hour; C78 for the LP, total deficit minus surplus as a lower bound for every dispatch in the direct case; witnesses by evaluation of `hour` |
| C105 | `contrl`, `year`, `cvchk` (LongerSpec, LongerProofs, PropertiesLonger) | simulation between the two loops, step by step, until the first raises the stop flag; the stop test is monotone in FINISH and in the tolerance |
| C106 | `contrl`, `year`, `report` (OutputSpec, OutputProofs, PropertiesOutput) | generic simulation lemma for two sets of handlers related by a relation on the data, instantiated with equality apart from INTVT and ITAB |
| C107 | `transm`, `hour`, whole runs (HistorySpec, HistoryProofs, PropertiesHistory) | the tables of two histories agree off the working columns, so scheduled rows and rebuilt base are equal; invariant of runs on the limit columns; witnesses by evaluation of `hour` |
| C108 | `pind`, `dataf1`, tables (NamesSpec, NamesProofs, PropertiesNames) | distinct-name lists and lookups commute with renamings injective on the names that occur |
| C109 | `seeder`, `gstate`, `lstate` (PeriodSpec, PeriodProofs, PropertiesPeriod) | order of 65539 modulo 2^25 by 2-adic valuation; a period is a permutation of two residue classes modulo 8 (times 64); counting below a threshold |
| C110 | `gstate`, `lstate` (PropertiesPeriod) | linear relation of three successive seeds, four cases of the integer multiple; refuting instance |
| C111 | `seeder`, `gstate`, `lstate` (StreamSpec, PropertiesStream) | the draw of a unit is a function of its position, its probabilities and the number of the draw (C109_draws); thresholds are monotone; witness by evaluation |
| C112 | `seeder`, `gstate`, `lstate` (StreamSpec, StreamProofs, PropertiesStream) | 9649599^2 is a power of 65539 modulo 2^25 (modular exponentiation in the kernel), odd powers are in the other classes modulo 8; period of C109 |
| C113 | `hrstat`, `pkstat`, `year` with rounded additions (FloatStatModel, FloatStatSpec, FloatStat, PropertiesFloatStat) | whole numbers up to 2^53 are floats; a volume bound as invariant over the calls of a run |
| C114 | whole runs of a study without chance (CertainSpec, CertainProofs, PropertiesCertain) | an hour's records do not depend on seeds, counters or earlier hours; the clock matters only through the hour of the year; invariant over the delivered events |
| C115 | hour.py 110-133, `hour` with any STMULT (CritModel, CritSpec, PropertiesCrit) | induction over the records with a moving pointer; sums of non-negative numbers |
| C116 | year.py 309-609, the numbers of every line of the annual table (AnnualModel, AnnualSpec, PropertiesAnnual) | induction over the levels with the two averages carried from line to line |
| C117 | `_dgefa`, `_dgedi` (LinLoopModel, PropertiesLinLoop) | column-by-column invariants against the block operations of LinpackModel |
| C118 | line_prob_sampling.py (SamplersModel, SamplersSpec, PropertiesSamplers) | intervals of [0, 1); telescoping sums |
| C119 | whole runs (PropertiesBounds, on ProgramModel) | totals over the records of the draws; one record per level and draw; injection of peak draws into days |
| C120 | whole runs (LevelsSpec/LevelsProofs on HourModel, NetModel, ProgramModel) | an accepted solution restores the base, so the next level repeats the last one; induction over the levels and over the run; two counterexamples by computation |
| C121 | single-area runs (PropertiesSingle on HourModel, YearModel, ReportModel, ProgramModel) | every draw's records are the own margins at every level; sums over the years from C64; refutation from C50 |
| C122 | `cvchk` with rounding, pow as an argument (FloatConvModel) | relative error analysis of mean, mean square, variance, root and limit; exactness of whole sums; induction over the years; counterexample by computation |
| C123 | runs without linear program (PlateSpec, PropertiesPlate on NetModel, HourModel, ProgramModel, ReportModel) | the injections the assignment leaves in the areas sum to zero (balance), so loads minus capacities are what the areas lose; kept along levels; a trace invariant (areas numbered) along whole runs (PlateTrace); sums over years and the report as in C64 |
| C124 | flow bound and runs with ample limits (AmpleSpec, CutProofs, AmpleProofs, PropertiesAmple on NetModel, HourModel, ControlModel, ProgramModel) | cut at an angle: all flows across the set of areas above a level have one sign and sum to the power sent by the set; both solutions' injections bounded by what is asked; induction over levels; two programs with equal handlers at every reachable draw have equal runs (step and fuel induction with the trace invariant) |
| C125 | choice of the reference area (RefSpec, RefProofs, PropertiesRef on NetModel, HourModel, ControlModel, ProgramModel) | solutions from two references differ by a constant angle; both kept matrices invert the network in force (C26, C27), so the solutions agree (C29); relation of two worlds equal but for the matrices kept by step and fuel induction with the trace invariant |
| C126 | direction of lines (TurnSpec, TurnProofs, TurnAmple, PropertiesTurn on NetModel, HourModel, ControlModel, ProgramModel) | the Laplacian does not depend on the order of the ends, so both base matrices are equal; solutions of the turned network are solutions of the original with signs exchanged (C29 uniqueness); the limit test is symmetric; the help of direct neighbours fails alike; induction over levels, equal handlers give equal runs; for ample studies (C124) every solution succeeds without the linear program under both descriptions, so the same holds with or without loss sharing and whatever the linear program |
| C127 | unit of power (ScaleSpec, ScaleProofs, ScaleLpSpec, ScaleLp, PropertiesScale on NetModel, LpModel, HourModel) | every step of a solution commutes with multiplication by a positive number, tests against limits compare two powers; the simplex passes are related state by state (same basis, tableau and costs, amounts scaled); failures are preserved; refuted for an hour by computing it in two units |
| C128 | unit of admittance (AdmSpec, AdmProofs, PropertiesAdm on NetModel) | every update of the matrices commutes with multiplying admittances by k and dividing impedances by k; angles are divided, flows unchanged; the inversion routine is paired with one for the other unit, shown to exist and be right |
| C57–C58 | `gsm`, `_gsm`, `pmlolp`, the readings of the table in `pmsc` (OutageModel) | invariant of the three-way merge for arbitrary fuel, induction over the units; P_outage is a sum over all state combinations. Refuted: strictly increasing levels (units rounded to 0 MW, and always in `pmsc`), rounding of fractions |

Not modelled: `pandas.read_csv` (tables are given as it delivers them, without empty fields or
repeated column names), text outside Latin-1, printing, pickle I/O, floating-point rounding outside C92-C99, C113 and C122,
numpy's random generators.  No property in the list is about those alone.

## 4. Assumptions reported by `Print Assumptions`

Every property theorem is followed by `Print Assumptions` in its file; all report
"Closed under the global context": no axioms, neither of the standard library nor
of the development.  (`vcheck` also lists the seven declarations
`Coq.ssr.ssrunder.Under_rel.*`: they are loaded with the standard library's
ssreflect plugin and no theorem here depends on them.)
