# DLBFoam in Rocq: design

Source modelled: `/repo` (Aalto-CFD/DLBFoam, pinned commit), read as text.
Below, `LB/` stands for `src/thermophysicalModels/chemistryModel/loadBalancing/`.

## 1. Approach

* **Arithmetic is a parameter.** Every model function takes a record `Arith` (carrier, `+ - * /`,
  `<`, `<=`, `==`, `abs`, literals, the OpenFOAM constants `small`, `great`, `vGreat`). Theorems about
  control flow, plans, ownership and histories are proved for *every* `Arith`, hence also for IEEE doubles with
  rounding, infinities and NaN. Theorems that need algebra are proved for the exact rationals (`QArith`, axiom-free).
  IEEE behaviour is exhibited with the Stdlib `SpecFloat` instance `F64` (binary64, computed inside Coq).
* **Undefined behaviour is an outcome.** Model functions return `outcome A = Ok a | UB | Fatal | Diverge`.
  `UB`: out-of-range access, iterator misuse, comparator that is not a strict weak order, read of an indeterminate
  scalar. `Fatal`: `FatalError`/`throw`. `Diverge`: the fuel of a `while` loop ran out (theorems exclude it or talk
  about all fuels).
* **External code is a quantified parameter**: `std::sort` (any function meeting the standard's contract),
  the cell integrator, timers, the mechanism library (pyJac), LAPACK, math functions. No axiom is declared.
* **The SPMD program is modelled globally**: one list of per-rank contexts; a collective step is a function of that
  list. The nonblocking exchange additionally has a small-step semantics with an arbitrary scheduler and it is proved
  to refine the function.

## 2. Files (rocq/theories)

Model (every definition cites file and lines of `/repo`):

| file | contents |
|---|---|
| `Outcome.v`, `Arith.v`, `Problem.v` | outcome monad, checked list access, arithmetic record and instances (`QA`/`QAD`/`QR` rationals, `F64` IEEE doubles), the value types ChemistryLoad/Problem/Solution |
| `LoadBalancing.v` | `LB/LoadBalancer.C`, `LB/LoadBalancerBase.[CH]`, `LB/algorithms_DLB.H`, `LB/SendBuffer.H`, `LB/runtime_assert.H` |
| `Streams.v` | `operator<<`/`>>` of ChemistryLoad/Problem/Solution |
| `Comm.v` | `sendRecv`, `allGather`, `balance`, `unbalance`: functional and small-step semantics |
| `MixtureFraction.v` | `refMapping/*` |
| `ChemistryModel.v` | `loadBalancedChemistryModel.[CH]` |
| `OdeSolver.v`, `Seulex.v` | `src/ODE_DLB`: ODESolver, ODESystem, seulex_LAPACK |
| `PyJac.v`, `MechModel.v` | `loadBalanced_pyJacChemistryModel.[CH]`, `ode_pyJac.[CH]`; the same linked with a mechanism library |
| `MechLang.v`, `MechSrc.v` | the C subset of the generated mechanism sources and its meaning (uninitialised variables, bounds); the functions of a library as calls |
| `{Drm19,Gri30,Yao}Code.v`, `{Drm19,Gri30,Yao}Rates.v` | `utilities/mechanisms/*/lib/src/{chem_utils,mass_mole,dydt,spec_rates,rxn_rates,rxn_rates_pres_mod}.c`, statement by statement |
| `MechChem.v`, `MechThermo.v`, `MechNames.v` | `chem.cti` (atoms, reactions, efficiencies), `foam/thermo.foam` (weights, elements), species lists, `mechanism.c` (masks) |
| `Drm19Vol.v`, `Gri30Vol.v`, `YaoVol.v`, head of `MechVol.v` | `chem_utils.c`: `eval_conc_rho`, `eval_u`, `eval_cv` |
| `Drm19Jac.v`, `Gri30JacT.v`, `YaoJacT.v`, `MechJac.v`, `MechFull.v` | `jacob.c` and `jacobs/*.c`: for drm19 everything, for gri30 and yao what fills the temperature column |
| `MechData.v` | `chem.cti`: NASA coefficients, Arrhenius and fall-off parameters |

Proofs: `SweepFacts`, `PlanFacts`, `SliceFacts`, `CommFacts`, `BalanceFacts`, `Chem*` (all arithmetics);
`QSum`, `QSweep`, `PlanQ`, `PeakFacts`, `MixtureFacts` (rationals); `F64Facts`, `ChemIeee` (doubles without real
numbers); `Ieee`, `SweepIeee`, `PyJacIeee`, `TransferIeee`, `PeakIeee`, `TimeIeee`, `MixIeee`, `OdeIeee`, `HeatIeee`, `ErrIeee`, `CountIeee` (doubles and real numbers, through Flocq); `Seulex{Mono,Safe,Run,Spec,Facts,Poly,Ex,
Cases,Linear}`, `Ode*`, `PyJac{Facts,Spec,Cases,Linear}`, `LinearEx`, `Gauss` (a solver meeting what is assumed of LAPACK).
`MechSym` (symbolic execution, sound for every arithmetic), `MechCall`, `MechPoly` (polynomial normal forms over the reals), `MechReal`
(`RA`: real arithmetic), `Mech{Spec,Rate,Pmod,Conc,Dydt,Defined,Rhs,Conv,Mass,Facts}` (one checker per function, proved sound, run on the three libraries),
`MechLaurent` (functions a ln T + b/T + polynomial), `MechExp` (enclosures of exp), `MechNasa`, `MechCp`, `MechKin` (checks), `MechArr` (their soundness), `MechLaw`, `MechTroe` (fall-off),
`MechJacT` (checks of the temperature column), `MechJacS` (their soundness), `MechJacD` (derivatives of the forms), `MechJac{R,E,C}` (derivatives of the rates), `MechJacF` (derivatives of the fall-off factors).
`Prop*.v`: the property theorems only, each with an example and `Print Assumptions`.

## 3. Properties and method

| id | model | method |
|---|---|---|
| C01-C03 | `getOperations`, `operationsToInfo` on all ranks | window invariant of the two-pointer sweep, any `Arith` |
| C04 | same, with iterator checks | each iteration moves exactly one pointer |
| C05, C06 | same over Q | numeric window invariant (passed receivers at the mean, passed senders within SMALL, signed window sum) |
| C07 | same over `F64` | the same invariant with an error budget; Sterbenz's lemma: a sender limited by its surplus lands exactly on the mean; Flocq |
| C08 | Q: proof; `F64`: false for large loads | sum invariant / `_refuted` |
| C09 | any `Arith` (filter), Q (equal loads) | filter lemma |
| C10, C11 | `timesToProblemCounts`, `SendBuffer`, `getRemaining` | induction on lists |
| C12 | Q, plan + counts | C05 + C10 |
| C13 | small-step exchange | invariant + decreasing measure + confluence to the functional result |
| C14 | exchange composed with a map | C02 + C13 |
| C15, C16 | `solve` on all ranks; runs as iterated steps | simulation relation ignoring CPU times and solver memory |
| C17 | same | permutation of the multiset of solved problems |
| C18 | token streams | round-trip lemma per field, induction on lists |
| C19 | `cpuTime : option` (None = indeterminate) | invariant: all cpuTimes defined |
| C20-C23 | `getProblems`, `map` | induction over cells |
| C24-C29 | `solve`, `updateReactionRates` | fold lemmas |
| C30 | `solveSingle` loop | induction on fuel |
| C31-C34 | `mixtureFraction` over Q | linear algebra over lists |
| C35-C38, C50, C53, C55, C56 | `PyJac.v` | list algebra over Q; relational invariants for every integrator |
| C39, C40, C54 | ODE driver | induction on steps |
| C41-C49 | seulex with option-valued work arrays | definedness invariant; monotonicity of the state monad; memory-free specification; Aitken-Neville |
| C51, C52 | helpers, serial run | direct |
| C57, C58 | seulex and ode_pyJac over Q | a weighted sum of the linear system; extrapolation is affine; induction on steps |
| C59 | mechanism sources, any `Arith` | symbolic execution: all reads and outputs have closed forms |
| C60-C68 | mechanism sources over the reals | closed forms compared with the formula built from `chem.cti` by a checker proved sound; then algebra |
| C69 | masks of `mechanism.c` | direct |
| C70 | `eval_cp`, `eval_h` over the reals | closed forms as polynomials of T on each interval, compared with `MechData.v` coefficient by coefficient |
| C71 | same | lower bounds of the polynomials by Taylor shifts on subintervals |
| C72 | `eval_rxn_rates` over the reals | closed forms c exp(a ln T + b/T + p(T)) compared with `MechData.v`; enclosures of exp for the pre-exponential factors |
| C73 | same with `eval_spec_rates` | C72, monotonicity of ln, exchange of sums |
| C74 | `get_rxn_pres_mod` over the reals | closed forms compared with the Troe formula built from `MechData.v`, rate constants as in C72 |
| C75 | `eval_jacob` (temperature column) over the reals | closed forms expanded into monomials and compared with the derivative built from `chem.cti`, up to the last digits of the literals; derivatives of c exp(a ln T + b/T + p(T)) |
| C76 | the same, fall-off reactions | derivative of the Troe function by the chain rule; the generated expression is that derivative at parameters within rounding of those of `chem.cti` (backward error), forward error of the remaining literals |
| C77 | the same, element of the temperature equation | the derivative of dT/dt = -sum(h_k w_k)/(rho cp) by the quotient rule, exact in the errors of the other elements; gri30: one run of the model on pure NNH compared with it |
| C78 | whole `eval_jacob` of drm19 over the reals | symbolic run of each of the 4 parts, every element compared with weight times stoichiometry times a common number per reaction and column; these numbers as polynomials in concentrations and rates compared with the derivative of mass action along one mass fraction |
| C79 | the same, fall-off reactions | the same symbolic comparison; chain rule of the Troe function with respect to the colliders |
| C80 | the same, row of the temperature | quotient rule for dT/dt along one mass fraction |
| C81 | `eval_jacob` in any arithmetic | two static analyses of function bodies proved sound once (`MechInit.v`: what is set before it is read; `MechSlice.v`: which elements can differ between two runs) and evaluated on the sources |
| C82 | `PyJac.v` linked with the mechanism libraries (`MechModel.v`) | composition of C59, C61, C77, C80 and C81 with what the model hands over; cutting off is the identity near a positive mass fraction |
| C83 | libraries along the pressure; `PyJac.v` linked with drm19 | slicing shows that `pres` is not read; mass action scales by powers; product and quotient rule; last row of `a - J` determines the last unknown |
| C84 | `PyJac.v` and `ChemistryModel.v` in IEEE doubles | rounding error of a sum of non-negative doubles (as in C51), of the subtraction from 1, and of the three operations of a rate, underflow included |
| C85 | `LoadBalancing.v` and `Comm.v` in IEEE doubles | invariant of the sweep: what a rank has given or taken so far against its first load and the mean (`TransferIeee.v`); a transfer that passes the 1 % filter is larger than all rounding errors, so senders are above and receivers below the exact mean (`PeakIeee.v`) |
| C86 | `eval_conc_rho`, `eval_u`, `eval_cv` (`MechVol.v`) | closed forms compared with those of `eval_conc`, `eval_h`, `eval_cp` literal by literal; bounds and derivative from C70 and C71 |
| C87 | `ChemistryModel.v` in IEEE doubles | the comparison of doubles is transitive, and total away from NaN; the fold of the minimum never becomes NaN; induction over the calls of the cell solver, one rounded subtraction each (`TimeIeee.v`) |
| C88 | `MixtureFraction.v` in IEEE doubles | products of literals and atom counts are exact; error of a coefficient, of the sum (induction over the species), of the two differences and of the quotient (`MixIeee.v`); the streams' own sums are the stored ones bit for bit |
| C89 | `OdeSolver.v` in IEEE doubles | two doubles around 2^-400 or above differ by at least 2^-453, so the products in the tests do not underflow and have the exact sign; induction over the steps (`OdeIeee.v`).  The stepper hypothesis is that of C40 with rounding; seulex does not meet it always (C41), and `C89_not_short` does without it |
| C90 | `PyJac.v` (`Qdot`) in IEEE doubles | induction over the species: the error after k terms is at most k (3 u M + 2^-1074) (`HeatIeee.v`); without cancellation M is the heat release itself |
| C91 | `OdeSolver.v` (`normalizeError`) and `Seulex.v` in IEEE doubles | error of tolerance, quotient and maximum; a rounded sum of non-negative doubles is at least each of them, so that the estimate bounds each component whatever the number of equations; C46 gives the test of each kept step (`ErrIeee.v`).  `sqrt` is Flocq's correctly rounded one |
| C92 | `LoadBalancing.v` in IEEE doubles | C10 (every arithmetic) and the rounding error of a sum of non-negative doubles (`CountIeee.v`) |

## 4. Trusted base

* The Coq 8.16.1 kernel (including its virtual machine; `coqchk` re-checks everything without it).
* `Print Assumptions` of every property theorem is in the build log. All print *Closed under the global context*
  except those about rounding errors of doubles (`C07_ieee_equalises`, `C07_tiny_loads_refuted`, `C51_mean_ieee`, C84, C85, C88-C90, C91 (but `C91_nan_lost_refuted`), C92 and `C87_substeps`) and those about
  the mechanism libraries in real arithmetic (C60-C68, C70-C80, C82, C83, C86), which use the
  real numbers of the standard library and print a subset of
  `ClassicalDedekindReals.sig_forall_dec`, `ClassicalDedekindReals.sig_not_dec`,
  `FunctionalExtensionality.functional_extensionality_dep`, `Classical_Prop.classic`.
  `vcheck` also lists sealed constants of loaded standard libraries (`ssrunder.Under_rel`, `RbaseSymbolsImpl`, `RinvImpl`); they are
  opaque module fields with a body, not assumptions of a theorem. Flocq is used as a library of theorems and adds no axiom.
* The reading of the C++ text. Nothing was compiled or run against the model. The mechanism sources (`*Code.v`, `*Rates.v`, `*Vol.v`, `*Jac.v`, `*JacT.v`), `MechChem.v`,
  `MechThermo.v`, `MechData.v` and `MechNames.v` were transcribed from the files by a script, one Coq statement per C statement.

### Modelled

Everything under `src/thermophysicalModels/chemistryModel` and `src/ODE_DLB` that computes: all functions of the files named
in section 2, function by function, including array sizes, iterator movement, indeterminate values and the order of floating point
operations. Of the mechanism libraries: the constant-pressure right-hand side `dydt` with all it calls, the rest of `chem_utils.c` (`eval_conc_rho`, `eval_u`, `eval_cv`), the conversions and the masks; of `eval_jacob` for drm19 everything, for gri30 and yao the temperature
column (the slices of gri30 and yao leave out the statements for the other columns, which share no variable with it but `kf`, `Kc` and the like, assigned anew before use; for drm19 `C81_temperature` proves that this leaves the column as it is). C60-C68 are about the sources
evaluated in real arithmetic (rounding of the generated formulas is not bounded); literals are the exact decimal numbers written.

### Modelled as parameters (theorems quantify over them)

`std::sort` (contract: a sorted permutation, for comparable input), the timers (`clockTime`, `cpuTime`: any values; where needed not
negative), MPI delivery (any schedule, any choice of eager messages), the pyJac library (`eval_h`, `dydt`, `eval_jacob`: any functions
of their arguments), LAPACK (`dgetrf`/`dgetrs`: any functions; C38, C48, C57 and C58 state what they need), `std::pow`, `std::sqrt`, `std::log10`,
`std::cbrt`, `int(double)`.

### Not modelled

Run-time selection tables, dictionaries and I/O of OpenFOAM objects; log files (`cpu_solve.out`, printed statistics); the thermo packages
(heat capacity and density fields are inputs); OpenFOAM's stock `standardChemistryModel` beyond what is overridden; parallel failures (MPI errors,
lost messages); overflow of `label`; of the mechanism libraries the columns of the mass fractions in the Jacobians of gri30 and yao, the constant-volume branch of `dydt.c` (`CONV`; it is not valid C: `eval_conc_rho (y[0]rho, ...`, and an operator is missing in the sum for `cv_avg`),
`sparse_multiplier.c` (no caller) and `set_same_initial_conditions` (always exits); transport data; bytes of binary streams below the level of tokens; `Make` files; test programs and
tutorials.

## 5. Claims found false of the code (`_refuted` theorems, with witnesses)

| theorem | what happens |
|---|---|
| `C08_assertions_ieee_refuted` | loads near 8e8 s: the mean moves by one ulp > 1e-7 and a debug build stops with "Vanishing load" |
| `C07_tiny_loads_refuted` | loads 0, 0, 9e-16: every difference is below the absolute SMALL, a rank is left idle |
| `C51_mean_above_max_refuted` | the mean of 0.1, 0.1, 0.1 is larger than 0.1 |
| `C26_lower_bound_refuted` | with reference mapping the returned time step ignores the mapped cells |
| `C33_nan_rejected_refuted` | NaN mass fractions pass the stream check |
| `C34_degenerate_diagnosed_refuted` | equal fuel and oxidiser Bilger fractions divide by zero without a diagnostic |
| `C37_last_nonnegative_refuted` | `1 - sum` of the integrated species can be negative |
| `C41_trial_step_refuted` | an accepted seulex step can be longer than the step asked for and overshoot the end |
| `C43_zero_relTol_refuted`, `C44_zero_relTol_refuted` | `relTol 0`: the Jacobian is never evaluated, stale or indeterminate memory is used |
| `C45_nan_accepted_refuted` | a NaN error estimate is accepted |
| `C47_accepted_temperature_refuted` | the extrapolated temperature is not checked |
| `C58_cut_off_refuted` | cutting off negative mass fractions creates mass of elements |
| `C56_overflow_refuted` | a library with more species than the case: `eval_h` writes out of bounds before the check |
| `C77_gri30_refuted` | the entry d(dT/dt)/dT of the gri30 Jacobian is not the derivative: `*J_nplusone =` is assigned by each reaction of N2 instead of summed |
| `C81_overwrites_refuted` | `eval_jacob` leaves the rows of argon in its output array as they were and reads them for dT/dt; `jacobian` passes a zeroed array |
| `C83_column_refuted` | the column of `jacobian` for the pressure is zero though the rates depend on it; harmless (`C83_linear`) as the pressure is kept |
| `C91_nan_lost_refuted` | `normalizeError` loses an error that is NaN unless it belongs to the last component: OpenFOAM's `max(s1, s2)` is `(s1 > s2) ? s1 : s2`, which returns `s2` if `s1` is NaN |

Further observations met while reading, not stated as theorems: a start temperature outside (200, 5000] makes a seulex step never return
(`C47_never_returns` is the theorem); on a rejected step the Jacobian is evaluated at the modified `y`; LAPACK's INFO is only printed;
`int(log10 tol)` is undefined for zero tolerances; `step.last` is never reset; a first trial step of the wrong sign is replaced by the whole
interval while `forward` stays false; mapped reaction rates are copied without rescaling by density; NaN mass fractions become 0 in
`max(c, 0)`; `deltaT <= SMALL` means no integration at all.

In the mechanism libraries: `gri30/lib/src/jacobs/jacob_{4,5,6}.c` assign `*J_nplusone = ...` where all other statements add (`+=`; e.g.
jacob_4.c:3678), so the entry d(dT/dt)/dT of the gri30 Jacobian misses terms; `eval_jacob` reads `jac[...]` before writing it and so relies on the caller
zeroing the buffer (it does); the NASA coefficients of `thermo.foam` are refits with a common switch temperature of 1000 K and differ from those of
`chem.cti` and the library; molecular weights are printed with 17 digits, so mass is conserved up to about 1e-16 only.

## 6. Mutation testing

`seeded/LOG.jsonl` has one line per wrong program: the definition edited, the edit, the claim broken, the theorems whose proofs failed, and
those tightened. A mutant is built in a scratch copy; a lemma that no longer compiles is admitted there and the build goes on, so
the list of failed theorems is what `Print Assumptions` reports as depending on a failed lemma.
