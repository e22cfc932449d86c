{"id": "C01", "title": "Role exclusivity", "statement": "After LoadBalancer::updateState no rank has both sources and destinations: a rank either sends problems, or receives problems, or does neither.", "quantifier": "every number of ranks, every vector of gathered loads, every tie order chosen by the sort, and every arithmetic (so including IEEE doubles with rounding, infinities and NaN, short of undefined behaviour)", "why_tests_cant": "the test checks a few random load vectors; the two-pointer sweep mixes rounding and pointer moves for unboundedly many rank counts", "anchors": ["src/thermophysicalModels/chemistryModel/loadBalancing/LoadBalancer.C: getOperations, operationsToInfo, isSender, isReceiver"]}
{"id": "C02", "title": "Plan symmetry", "statement": "The plans computed independently on the ranks agree: b occurs among a's destinations exactly as often as a occurs among b's sources, and that is at most once.", "quantifier": "every pair of ranks, every load vector, every arithmetic", "why_tests_cant": "a mismatch for one load vector deadlocks or loses cells; a test can only sample load vectors and runs all ranks with the same data it was written for", "anchors": ["src/thermophysicalModels/chemistryModel/loadBalancing/LoadBalancer.C: updateState, getOperations, operationsToInfo"]}
{"id": "C03", "title": "Plan well-formedness", "statement": "Every source and destination is an existing rank different from the rank itself, no rank is listed twice, one count is produced per destination, and validState() holds.", "quantifier": "every number of ranks, every load vector, every arithmetic", "why_tests_cant": "out-of-range or duplicate ranks only show for special load vectors and rank counts", "anchors": ["src/thermophysicalModels/chemistryModel/loadBalancing/LoadBalancer.C: operationsToInfo", "src/thermophysicalModels/chemistryModel/loadBalancing/LoadBalancerBase.C: validState, setState"]}
{"id": "C04", "title": "Planning terminates without undefined behaviour", "statement": "The transfer sweep performs exactly nRanks-1 iterations, and never dereferences or decrements an iterator out of range, whenever there is at least one rank and the loads are mutually comparable.", "quantifier": "every load vector with at least one rank, every arithmetic and rounding behaviour", "why_tests_cant": "termination of a while loop driven by floating-point comparisons cannot be settled by running it on samples", "anchors": ["src/thermophysicalModels/chemistryModel/loadBalancing/LoadBalancer.C: getOperations"]}
{"id": "C05", "title": "Transfers go from overloaded to underloaded ranks and never exceed excess or deficit", "statement": "In exact arithmetic, the times a rank is asked to give away sum to at most its load above the mean (zero if it is not above), and the times a rank is promised sum to at most its load below the mean.", "quantifier": "all load vectors of non-negative rationals, any number of ranks, any positive tolerance", "why_tests_cant": "the bound needs a global invariant over the whole sweep; samples cannot exclude a load vector for which a transfer overshoots", "anchors": ["src/thermophysicalModels/chemistryModel/loadBalancing/LoadBalancer.C: getOperations"]}
{"id": "C06", "title": "The unfiltered transfers equalise the loads", "statement": "In exact arithmetic, applying all planned transfers (before the 1% filter) leaves every rank within (nRanks-1)*SMALL of the mean, with at most one rank below the mean.", "quantifier": "all rational load vectors, any number of ranks, any positive tolerance", "why_tests_cant": "requires an inductive invariant over an unbounded sweep", "anchors": ["src/thermophysicalModels/chemistryModel/loadBalancing/LoadBalancer.C: getOperations"]}
{"id": "C07", "title": "Equalisation under IEEE double rounding", "statement": "When loads are IEEE doubles and the mean load is at least 1e-6 s, applying all planned transfers (before the 1% filter) leaves every rank within 1% of the true mean, and within 30*n^2*2^-53*mean + n*SMALL of it. For arbitrarily small loads this is false: loads 0, 0, 9e-16 leave a rank without work.", "quantifier": "all vectors of 1..2^20 finite doubles in [0, 2^900], every sorting routine", "why_tests_cant": "depends on rounding in s-(s-m) against an absolute tolerance of 1e-15; failing inputs are sparse", "anchors": ["src/thermophysicalModels/chemistryModel/loadBalancing/LoadBalancer.C: getOperations"]}
{"id": "C08", "title": "Load conservation and the 'Vanishing load' assertion", "statement": "The sweep conserves the total load, so the debug assertion that the mean is unchanged holds for every input.", "quantifier": "all load vectors (exact arithmetic: always; IEEE doubles: the claim is checked for every magnitude of loads)", "why_tests_cant": "an absolute 1e-7 tolerance is only violated for large loads never used by tests", "anchors": ["src/thermophysicalModels/chemistryModel/loadBalancing/LoadBalancer.C: getOperations"]}
{"id": "C09", "title": "Small transfers are filtered exactly", "statement": "The plan consists of exactly those transfers of the sweep whose value is strictly greater than one percent of the mean load; in particular no transfer is planned when all loads are equal or all are zero.", "quantifier": "all load vectors; the filter for every arithmetic", "why_tests_cant": "boundary behaviour (strictness, mean zero on the first step) over all inputs", "anchors": ["src/thermophysicalModels/chemistryModel/loadBalancing/LoadBalancer.C: getOperations"]}
{"id": "C10", "title": "Problem counts respect the time budget and are maximal", "statement": "For each destination the problems sent are the longest run, starting where the previous destination's run ended, whose running sums of measured times all stay within the transfer's time.", "quantifier": "all problem lists, all lists of transfer times, every arithmetic", "why_tests_cant": "greedy prefix property over all lists and roundings", "anchors": ["src/thermophysicalModels/chemistryModel/loadBalancing/LoadBalancer.C: timesToProblemCounts", "src/thermophysicalModels/chemistryModel/loadBalancing/algorithms_DLB.H: count_while"]}
{"id": "C11", "title": "Send slices and remaining problems partition the problem list", "statement": "The slices handed to the destinations followed by the remaining problems are exactly the rank's problem list, in order; counts and nRemaining are non-negative and the sublist accesses are in range.", "quantifier": "all problem lists and all plans", "why_tests_cant": "off-by-one or overlap faults appear only for particular count/size combinations", "anchors": ["src/thermophysicalModels/chemistryModel/loadBalancing/LoadBalancer.C: operationsToInfo", "src/thermophysicalModels/chemistryModel/loadBalancing/LoadBalancerBase.H: getRemaining, balance", "src/thermophysicalModels/chemistryModel/loadBalancing/SendBuffer.H: operator[]"]}
{"id": "C12", "title": "Balancing never raises the predicted peak load", "statement": "In exact arithmetic the predicted load of every rank after balancing (times of the problems it will solve) is at most the largest predicted load before; ranks that send stay at or above the mean, ranks that receive stay at or below it.", "quantifier": "all distributions of non-negative measured times over cells and ranks", "why_tests_cant": "a global arithmetic statement over all distributions", "anchors": ["src/thermophysicalModels/chemistryModel/loadBalancing/LoadBalancer.C: updateState, timesToProblemCounts"]}
{"id": "C13", "title": "The exchange is deadlock free and schedule independent", "statement": "For every interleaving of sends, message deliveries and receives, the exchange of a balanced plan terminates with every rank finished, no rank ever reads from an empty channel, and the received buffers are the same for all schedules: position i of the buffer holds exactly what sources[i] sent to this rank.", "quantifier": "all numbers of ranks, all symmetric plans, all payloads, all schedules of the nonblocking exchange", "why_tests_cant": "the number of interleavings is unbounded; a test observes one", "anchors": ["src/thermophysicalModels/chemistryModel/loadBalancing/LoadBalancerBase.H: sendRecv, balance, unbalance"]}
{"id": "C14", "title": "Solutions return to their owner in order", "statement": "balance followed by a per-item solve and unbalance gives each rank the solutions of precisely the problems it sent, grouped by destination in the order sent.", "quantifier": "all plans, all problem lists, all schedules", "why_tests_cant": "ordering and ownership must hold for every plan", "anchors": ["src/thermophysicalModels/chemistryModel/loadBalancing/LoadBalancerBase.H: balance, unbalance", "src/thermophysicalModels/chemistryModel/chemistryModel/loadBalancedChemistryModel/loadBalancedChemistryModel.C: solve, solveBuffer"]}
{"id": "C15", "title": "Load balancing is transparent", "statement": "Turning load balancing on or off does not change the reaction rates, the chemical time steps, the reference map or the returned time step on any rank, provided the cell solver's result does not depend on the cells it solved before.", "quantifier": "all decompositions of cells over ranks, all field values, all timings, all rank counts, both debug settings", "why_tests_cant": "bitwise equality over all decompositions and timings cannot be sampled", "anchors": ["src/thermophysicalModels/chemistryModel/chemistryModel/loadBalancedChemistryModel/loadBalancedChemistryModel.C: solve, solveSingle, solveList, solveBuffer, updateReactionRates"]}
{"id": "C16", "title": "Timing non-interference over whole runs", "statement": "Over a run of any number of time steps, the physical fields and returned time steps do not depend on measured CPU times, on whether balancing is active, or on the message schedule.", "quantifier": "all run lengths, all timer readings, all flow solvers between chemistry calls", "why_tests_cant": "timers are nondeterministic; only a proof covers every reading in every step", "anchors": ["src/thermophysicalModels/chemistryModel/chemistryModel/loadBalancedChemistryModel/loadBalancedChemistryModel.C: solve, getProblems, updateReactionRates"]}
{"id": "C17", "title": "Every problem is solved exactly once", "statement": "In a balanced step each problem assembled on any rank is solved by exactly one rank, and nothing else is solved.", "quantifier": "all decompositions, plans and payloads", "why_tests_cant": "loss or duplication may only occur for particular plans", "anchors": ["src/thermophysicalModels/chemistryModel/chemistryModel/loadBalancedChemistryModel/loadBalancedChemistryModel.C: solve", "src/thermophysicalModels/chemistryModel/loadBalancing/LoadBalancerBase.H: balance, getRemaining"]}
{"id": "C18", "title": "Serialisation round trip", "statement": "Reading back a written list of ChemistryProblem, ChemistrySolution or ChemistryLoad yields the identical values field by field and consumes exactly the bytes written.", "quantifier": "all values, all lists of any length, any following stream content", "why_tests_cant": "field-order mistakes between << and >> with equal types are invisible unless every field differs; lists are unbounded", "anchors": ["src/thermophysicalModels/chemistryModel/loadBalancing/ChemistryProblem.H: operator<<, operator>>", "src/thermophysicalModels/chemistryModel/loadBalancing/ChemistrySolution.H: operator<<, operator>>", "src/thermophysicalModels/chemistryModel/loadBalancing/ChemistryLoad.H: operator<<, operator>>"]}
{"id": "C19", "title": "No indeterminate time ever reaches the balancer", "statement": "Although ChemistryProblem and ChemistrySolution leave cpuTime uninitialised in their sizing constructors, every cpuTime that is read (load computation, counts, messages, cell field) was written before.", "quantifier": "all inputs and all histories of chemistry calls", "why_tests_cant": "reads of uninitialised memory usually look plausible in a test", "anchors": ["src/thermophysicalModels/chemistryModel/chemistryModel/loadBalancedChemistryModel/loadBalancedChemistryModel.C: getProblems, solveSingle, solveList, map", "src/thermophysicalModels/chemistryModel/loadBalancing/ChemistryProblem.H", "src/thermophysicalModels/chemistryModel/loadBalancing/ChemistrySolution.H"]}
{"id": "C20", "title": "Cells are partitioned into solved and mapped", "statement": "getProblems returns each cell of the rank at most once; a cell is returned exactly when it is not served by the reference solution, and the reference map records 2 for returned cells, 0 for the reference cell and 1 for the other mapped cells (the reference itself is returned when its own temperature test fails).", "quantifier": "all meshes, fields and mapper settings", "why_tests_cant": "index bookkeeping with two lists and a counter over all masks", "anchors": ["src/thermophysicalModels/chemistryModel/chemistryModel/loadBalancedChemistryModel/loadBalancedChemistryModel.C: getProblems, map"]}
{"id": "C21", "title": "Mapping safety", "statement": "A cell receives the reference rates only if its mixture fraction is below the tolerance, its temperature is strictly within deltaT of the reference temperature, and it then receives precisely the rates and chemical time step computed for the first such cell of the rank.", "quantifier": "all fields, all tolerances, every arithmetic", "why_tests_cant": "a data-dependent property of every cell", "anchors": ["src/thermophysicalModels/chemistryModel/chemistryModel/loadBalancedChemistryModel/loadBalancedChemistryModel.C: map, getProblems", "src/thermophysicalModels/chemistryModel/refMapping/mixtureFractionRefMapper.C: shouldMap, temperatureWithinRange"]}
{"id": "C22", "title": "Every cell is refreshed in every call", "statement": "After solve with chemistry on, the reaction rates and chemical time step of every cell were written in this very call, from a solution computed in this call; no stale value survives.", "quantifier": "all meshes, fields, mapper settings, decompositions", "why_tests_cant": "stale values are indistinguishable in tests where fields barely change", "anchors": ["src/thermophysicalModels/chemistryModel/chemistryModel/loadBalancedChemistryModel/loadBalancedChemistryModel.C: solve, getProblems, map, updateReactionRates"]}
{"id": "C23", "title": "Inactive reference mapping is neutral", "statement": "With reference mapping inactive every cell is solved individually and labelled 2, in cell order.", "quantifier": "all fields and tolerances", "why_tests_cant": "must hold for all field values including NaN mixture fractions", "anchors": ["src/thermophysicalModels/chemistryModel/chemistryModel/loadBalancedChemistryModel/loadBalancedChemistryModel.C: getProblems", "src/thermophysicalModels/chemistryModel/refMapping/mixtureFractionRefMapper.C: shouldMap"]}
{"id": "C24", "title": "The scalar solve at most doubles the time step", "statement": "solve(deltaT) returns a value that is either smaller than 2*deltaT or equal to 2*deltaT.", "quantifier": "all inputs, every arithmetic including NaN results", "why_tests_cant": "NaN behaviour of min depends on argument order", "anchors": ["src/thermophysicalModels/chemistryModel/chemistryModel/loadBalancedChemistryModel/loadBalancedChemistryModel.C: solve(const scalar)"]}
{"id": "C25", "title": "Returned time step is the minimum over the solved cells", "statement": "The value returned by the field solve is the smallest chemical time step among the individually solved cells of the rank (great when there are none).", "quantifier": "all fields in exact arithmetic", "why_tests_cant": "minimum over unbounded lists", "anchors": ["src/thermophysicalModels/chemistryModel/chemistryModel/loadBalancedChemistryModel/loadBalancedChemistryModel.C: updateReactionRates"]}
{"id": "C26", "title": "Returned time step covers all cells", "statement": "The value returned by solve is a lower bound of the chemical time step stored for every cell of the rank, including reference-mapped cells.", "quantifier": "all fields and mapper settings", "why_tests_cant": "only fails when the reference cell is the most restrictive one", "anchors": ["src/thermophysicalModels/chemistryModel/chemistryModel/loadBalancedChemistryModel/loadBalancedChemistryModel.C: updateReactionRates, map"]}
{"id": "C27", "title": "Chemical time step is capped", "statement": "After a call each cell's stored chemical time step is either deltaTChemMax or strictly less than it.", "quantifier": "all inputs, every arithmetic including NaN time steps from the integrator", "why_tests_cant": "NaN ordering cases", "anchors": ["src/thermophysicalModels/chemistryModel/chemistryModel/loadBalancedChemistryModel/loadBalancedChemistryModel.C: solveSingle, updateReactionRate"]}
{"id": "C28", "title": "Reaction rate definition", "statement": "The stored rate of each species in an individually solved cell is rho*(Y_after - Y_before)/deltaT of that very cell, with the composition before the step being the old-time mass fractions.", "quantifier": "all cells, fields and integrators", "why_tests_cant": "must hold for each cell after migration to any rank", "anchors": ["src/thermophysicalModels/chemistryModel/chemistryModel/loadBalancedChemistryModel/loadBalancedChemistryModel.C: solveSingle, getProblems"]}
{"id": "C29", "title": "Chemistry off is a no-op", "statement": "With chemistry switched off solve returns great and changes no field.", "quantifier": "all states", "why_tests_cant": "all states", "anchors": ["src/thermophysicalModels/chemistryModel/chemistryModel/loadBalancedChemistryModel/loadBalancedChemistryModel.C: solve"]}
{"id": "C30", "title": "Sub-stepping covers the time step", "statement": "If the per-cell solve returns, the consumed sub-steps add up to the cell's time step up to the tolerance small, and with an integrator that always consumes the whole requested step exactly one call is made.", "quantifier": "all integrators, all time steps", "why_tests_cant": "a while loop with an integrator-controlled decrement", "anchors": ["src/thermophysicalModels/chemistryModel/chemistryModel/loadBalancedChemistryModel/loadBalancedChemistryModel.C: solveSingle"]}
{"id": "C31", "title": "Mixture fraction normalisation and linearity", "statement": "The mixture fraction is 0 on the oxidiser composition, 1 on the fuel composition, and affine along mixing lines between any two compositions.", "quantifier": "all species sets, all stream compositions with distinct Bilger values, exact arithmetic", "why_tests_cant": "all compositions", "anchors": ["src/thermophysicalModels/chemistryModel/refMapping/mixtureFraction.C: initialize, massFractionToMixtureFraction"]}
{"id": "C32", "title": "Mixture fraction is a conserved scalar", "statement": "Two compositions with equal element mass fractions of C, H and O have equal mixture fraction, so no chemical reaction changes it; it equals Bilger's documented formula in element mass fractions.", "quantifier": "all compositions and all element matrices", "why_tests_cant": "all reactions", "anchors": ["src/thermophysicalModels/chemistryModel/refMapping/mixtureFraction.C: initialize, massFractionToMixtureFraction", "src/thermophysicalModels/chemistryModel/refMapping/mixtureFraction.H"]}
{"id": "C33", "title": "Invalid stream compositions are rejected", "statement": "initialize aborts exactly when the fuel or the oxidiser mass fractions fail to sum to one within SMALL.", "quantifier": "all stream dictionaries", "why_tests_cant": "boundary and order of the checks over all inputs", "anchors": ["src/thermophysicalModels/chemistryModel/refMapping/mixtureFraction.C: initialize"]}
{"id": "C34", "title": "Degenerate streams are diagnosed", "statement": "A fuel and oxidiser pair with equal Bilger function is rejected before a mixture fraction is evaluated.", "quantifier": "all pairs of stream compositions", "why_tests_cant": "only special pairs trigger the division by zero", "anchors": ["src/thermophysicalModels/chemistryModel/refMapping/mixtureFraction.C: initialize, massFractionToMixtureFraction"]}
{"id": "C35", "title": "Composition handed to the mechanism is normalised", "statement": "For every state vector, the mass fractions on which rates and Jacobians are evaluated are non-negative for all species but the last, and sum to one.", "quantifier": "all state vectors in exact arithmetic (non-negativity in every arithmetic)", "why_tests_cant": "all state vectors, including negative integrator iterates", "anchors": ["src/thermophysicalModels/chemistryModel/chemistryModel/loadBalanced_pyJacChemistryModel/loadBalanced_pyJacChemistryModel.C: derivatives, jacobian"]}
{"id": "C36", "title": "Cell solve returns a normalised composition", "statement": "After the pyJac cell solve the species 0..n-2 are non-negative and all mass fractions sum to one.", "quantifier": "all integrator outcomes", "why_tests_cant": "all integrator outcomes", "anchors": ["src/thermophysicalModels/chemistryModel/chemistrySolver/ode_pyJac/ode_pyJac.C: solve"]}
{"id": "C37", "title": "The last species stays non-negative", "statement": "After the pyJac cell solve all mass fractions, including that of the last (inert) species, are non-negative.", "quantifier": "all integrator outcomes", "why_tests_cant": "requires an integrator outcome whose partial sum exceeds one", "anchors": ["src/thermophysicalModels/chemistryModel/chemistrySolver/ode_pyJac/ode_pyJac.C: solve"]}
{"id": "C38", "title": "Pressure is constant during a cell solve", "statement": "A pyJac cell solve with the seulex integrator returns the pressure it was given.", "quantifier": "all states, mechanisms, step sequences, in exact arithmetic with an exact linear solver", "why_tests_cant": "invariant of an adaptive integrator over unboundedly many internal steps", "anchors": ["src/thermophysicalModels/chemistryModel/chemistryModel/loadBalanced_pyJacChemistryModel/loadBalanced_pyJacChemistryModel.C: derivatives, jacobian", "src/ODE_DLB/ODESolvers/seulex_LAPACK/seulex_LAPACK.C: seul, solve", "src/thermophysicalModels/chemistryModel/chemistrySolver/ode_pyJac/ode_pyJac.C: solve"]}
{"id": "C39", "title": "The ODE driver reaches the end point or fails loudly", "statement": "solve(xStart,xEnd,...) returns only when the requested end point has been reached, after at most maxSteps steps; otherwise it raises a fatal error. It never runs forever if each step terminates.", "quantifier": "all intervals (forward and backward), steppers and step histories, every arithmetic", "why_tests_cant": "adaptive step histories are unbounded", "anchors": ["src/ODE_DLB/ODESolvers/ODESolver/ODESolver.C: solve(xStart,xEnd,y,li,dxTry)"]}
{"id": "C40", "title": "The ODE driver does not overshoot", "statement": "In exact arithmetic the integration never evaluates past the end point if every step advances by no more than the step it was asked to try.", "quantifier": "all intervals, all well-behaved steppers", "why_tests_cant": "all step histories", "anchors": ["src/ODE_DLB/ODESolvers/ODESolver/ODESolver.C: solve(xStart,xEnd,y,li,dxTry)"]}
{"id": "C41", "title": "seulex honours the step it was asked to try", "statement": "A seulex step advances the independent variable by no more than the trial step.", "quantifier": "all ODE systems and states", "why_tests_cant": "only after a rejected trial with a growing optimal step", "anchors": ["src/ODE_DLB/ODESolvers/seulex_LAPACK/seulex_LAPACK.C: solve"]}
{"id": "C42", "title": "seulex array accesses stay in bounds", "statement": "In every call the extrapolation order target stays within 1..iMaxx-2 and every table, step-size and cost index used is within the arrays.", "quantifier": "all ODE systems, tolerances and histories, every arithmetic", "why_tests_cant": "index arithmetic driven by error estimates over unbounded histories", "anchors": ["src/ODE_DLB/ODESolvers/seulex_LAPACK/seulex_LAPACK.C: solve, extrapolate, seul"]}
{"id": "C43", "title": "seulex is memoryless across calls", "statement": "The result of integrating a cell does not depend on which cells the same solver object integrated before, provided every relative tolerance is positive.", "quantifier": "all histories of calls, all systems", "why_tests_cant": "state leakage depends on the whole history", "anchors": ["src/ODE_DLB/ODESolvers/seulex_LAPACK/seulex_LAPACK.C: solve", "src/ODE_DLB/ODESolvers/ODESolver/ODESolver.C: solve"]}
{"id": "C44", "title": "seulex never reads uninitialised work arrays", "statement": "Every element of the solver's work arrays and flags that a call reads has been written earlier in the same call.", "quantifier": "all systems and histories", "why_tests_cant": "uninitialised reads are usually benign in tests", "anchors": ["src/ODE_DLB/ODESolvers/seulex_LAPACK/seulex_LAPACK.C: solve, seul, extrapolate"]}
{"id": "C45", "title": "Only steps within the error tolerance are accepted", "statement": "A seulex step returns only after a column whose scaled error estimate is at most one.", "quantifier": "all systems, exact arithmetic and IEEE", "why_tests_cant": "NaN comparisons", "anchors": ["src/ODE_DLB/ODESolvers/seulex_LAPACK/seulex_LAPACK.C: solve"]}
{"id": "C46", "title": "A seulex step advances exactly by the step it reports", "statement": "On return the independent variable has advanced by exactly the reported dxDid and y is the extrapolated value of the last column computed for that step.", "quantifier": "all systems and histories", "why_tests_cant": "retries within a call change the step several times", "anchors": ["src/ODE_DLB/ODESolvers/seulex_LAPACK/seulex_LAPACK.C: solve"]}
{"id": "C47", "title": "Temperatures within a seulex step", "statement": "In every accepted seulex step the states after all substeps but the last of each column used have a first component in (200,5000]; the accepted state itself is not checked and can lie outside. If the first component lies outside after one substep of any size (for instance a start outside the range), the integration never returns.", "quantifier": "all systems; all numbers of retries", "why_tests_cant": "non-termination cannot be observed by a test", "anchors": ["src/ODE_DLB/ODESolvers/seulex_LAPACK/seulex_LAPACK.C: solve"]}
{"id": "C48", "title": "Each seulex column is the linearly implicit Euler method", "statement": "A successful column k consists of nSeq[k] substeps each solving (I/dx - J) dy = f exactly once with the factorised Jacobian, starting from y0.", "quantifier": "all systems, exact linear solver", "why_tests_cant": "all systems", "anchors": ["src/ODE_DLB/ODESolvers/seulex_LAPACK/seulex_LAPACK.C: seul"]}
{"id": "C49", "title": "Extrapolation is exact on polynomials", "statement": "With the coefficient table built by the constructor, extrapolating k+1 columns reproduces the constant term of every polynomial in the step size of degree at most k.", "quantifier": "all polynomials, all columns up to kMaxx", "why_tests_cant": "polynomials of any coefficients", "anchors": ["src/ODE_DLB/ODESolvers/seulex_LAPACK/seulex_LAPACK.C: extrapolate, constructor"]}
{"id": "C50", "title": "Heat release from rates", "statement": "Qdot in each cell is minus the sum over species of formation enthalpy times reaction rate; zero when chemistry is off.", "quantifier": "all fields", "why_tests_cant": "all fields", "anchors": ["src/thermophysicalModels/chemistryModel/chemistryModel/loadBalanced_pyJacChemistryModel/loadBalanced_pyJacChemistryModel.C: Qdot"]}
{"id": "C51", "title": "Load statistics helpers", "statement": "getMin/getMax return a load of the list that is not above/below any other (the first such one), getMean is the arithmetic mean (in doubles up to a relative error 4*n*2^-53, and it can exceed the largest load), rankToLoadIdx returns the first index with the rank or throws exactly when there is none.", "quantifier": "all non-empty lists of comparable loads", "why_tests_cant": "ties and positions over all lists", "anchors": ["src/thermophysicalModels/chemistryModel/loadBalancing/LoadBalancerBase.C: getMin, getMax, getMean, rankToLoadIdx"]}
{"id": "C52", "title": "Serial run stays local", "statement": "With a single rank the plan is empty, every problem stays local, and balanced and unbalanced solves coincide.", "quantifier": "all problem lists and timings", "why_tests_cant": "all timings, including NaN", "anchors": ["src/thermophysicalModels/chemistryModel/loadBalancing/LoadBalancer.C: updateState", "src/thermophysicalModels/chemistryModel/loadBalancing/LoadBalancerBase.H: sendRecv"]}
{"id": "C53", "title": "Species source terms conserve total mass", "statement": "For a composition integrated by the pyJac cell solve from a composition summing to one, the stored reaction rates of all species sum to zero.", "quantifier": "all integrator outcomes, exact arithmetic", "why_tests_cant": "all integrator outcomes", "anchors": ["src/thermophysicalModels/chemistryModel/chemistrySolver/ode_pyJac/ode_pyJac.C: solve", "src/thermophysicalModels/chemistryModel/chemistryModel/loadBalancedChemistryModel/loadBalancedChemistryModel.C: solveSingle"]}
{"id": "C54", "title": "Error norm meaning", "statement": "normalizeError is non-negative and at most one exactly when every component's error is within absTol + relTol*max(|y0|,|y|) of that component.", "quantifier": "all vectors with positive tolerances", "why_tests_cant": "all vectors", "anchors": ["src/ODE_DLB/ODESolvers/ODESolver/ODESolver.C: normalizeError"]}
{"id": "C55", "title": "Jacobian layout", "statement": "The matrix handed to the integrator has entry (i,j) equal to the mechanism's d(ydot_i)/d(y_j) for all i,j below nSpecie, and zero last row and column.", "quantifier": "all state vectors", "why_tests_cant": "column/row-major confusion is invisible for symmetric test data", "anchors": ["src/thermophysicalModels/chemistryModel/chemistryModel/loadBalanced_pyJacChemistryModel/loadBalanced_pyJacChemistryModel.C: jacobian"]}
{"id": "C56", "title": "Species mismatch is diagnosed", "statement": "Constructing the pyJac chemistry model with a mechanism library compiled for a different number of species than the thermophysical model ends with the error message, without any access out of bounds; with matching numbers construction succeeds.", "quantifier": "all mechanism libraries and numbers of species, chemistry on or off", "why_tests_cant": "the write out of bounds is silent for small differences and needs every pair of species counts", "anchors": ["src/thermophysicalModels/chemistryModel/chemistryModel/loadBalanced_pyJacChemistryModel/loadBalanced_pyJacChemistryModel.C: constructor"]}
{"id": "C57", "title": "Linear first integrals survive seulex", "statement": "For an ODE system in which a weighted sum of the unknowns has derivative zero, and a Jacobian consistent with that, the weighted sum of the state is the same after every step seulex takes, whatever the step sizes, orders, rejections and re-used Jacobians.", "quantifier": "all systems, weights, tolerances, states and integrations whose linear systems are regular; exact arithmetic", "why_tests_cant": "a wrong coefficient in the linear system or the extrapolation shows up as a drift below the tolerances of a test", "anchors": ["src/ODE_DLB/ODESolvers/seulex_LAPACK/seulex_LAPACK.C: seul, extrapolate, solve"]}
{"id": "C58", "title": "Element masses survive the cell solve", "statement": "If the mechanism library conserves an element (the rates weighted with the mass of the element per mass of species cancel, the last species taking up the rest), the cell solve of ode_pyJac returns mass fractions with the same mass of that element, as long as no integrated mass fraction is negative; cutting off negative mass fractions does create mass of elements.", "quantifier": "all mechanism libraries, cells, tolerances and time steps; exact arithmetic", "why_tests_cant": "needs every mechanism and every path through the step control", "anchors": ["src/thermophysicalModels/chemistryModel/chemistrySolver/ode_pyJac/ode_pyJac.C: solve", "src/thermophysicalModels/chemistryModel/chemistryModel/loadBalanced_pyJacChemistryModel/loadBalanced_pyJacChemistryModel.C: derivatives, jacobian"]}
{"id": "C59", "title": "Mechanism functions are defined", "statement": "For each of the three mechanism libraries, dydt and every function it calls (and the mole/mass conversions) read only variables that have been set, stay within their arrays and set every element of their results, whatever the temperature, pressure and composition.", "quantifier": "all states, every arithmetic and mathematics library", "why_tests_cant": "thousands of generated statements with literal subscripts; a variable left unset only on one branch of a temperature range goes unnoticed", "anchors": ["utilities/mechanisms/drm19/lib/src/dydt.c: dydt", "utilities/mechanisms/gri30/lib/src/dydt.c: dydt", "utilities/mechanisms/yao/lib/src/dydt.c: dydt", "utilities/mechanisms/drm19/lib/src/chem_utils.c: eval_conc, eval_h, eval_cp", "utilities/mechanisms/gri30/lib/src/chem_utils.c: eval_conc, eval_h, eval_cp", "utilities/mechanisms/yao/lib/src/chem_utils.c: eval_conc, eval_h, eval_cp", "utilities/mechanisms/drm19/lib/src/rxn_rates.c: eval_rxn_rates", "utilities/mechanisms/gri30/lib/src/rxn_rates.c: eval_rxn_rates", "utilities/mechanisms/yao/lib/src/rxn_rates.c: eval_rxn_rates", "utilities/mechanisms/drm19/lib/src/rxn_rates_pres_mod.c: get_rxn_pres_mod", "utilities/mechanisms/gri30/lib/src/rxn_rates_pres_mod.c: get_rxn_pres_mod", "utilities/mechanisms/yao/lib/src/rxn_rates_pres_mod.c: get_rxn_pres_mod", "utilities/mechanisms/drm19/lib/src/spec_rates.c: eval_spec_rates", "utilities/mechanisms/gri30/lib/src/spec_rates.c: eval_spec_rates", "utilities/mechanisms/yao/lib/src/spec_rates.c: eval_spec_rates", "utilities/mechanisms/drm19/lib/src/mass_mole.c", "utilities/mechanisms/gri30/lib/src/mass_mole.c", "utilities/mechanisms/yao/lib/src/mass_mole.c"]}
{"id": "C60", "title": "Production rates follow the stoichiometry", "statement": "eval_spec_rates gives each species, the last included, the sum over the reactions of chem.cti of its net stoichiometric coefficient times the net rate of progress (forward minus reverse rate, times the pressure modification for third-body and fall-off reactions).", "quantifier": "all rates of progress and modifications, all three mechanisms; real arithmetic", "why_tests_cant": "one wrong sign, coefficient or subscript among thousands of terms changes a rate only where that reaction matters", "anchors": ["utilities/mechanisms/drm19/lib/src/spec_rates.c: eval_spec_rates", "utilities/mechanisms/gri30/lib/src/spec_rates.c: eval_spec_rates", "utilities/mechanisms/yao/lib/src/spec_rates.c: eval_spec_rates", "utilities/mechanisms/drm19/chem.cti", "utilities/mechanisms/gri30/chem.cti", "utilities/mechanisms/yao/chem.cti"]}
{"id": "C61", "title": "Elements and mass are conserved by the rates", "statement": "The production rates of a mechanism library neither create nor destroy atoms of any element; the rates of change of the mass fractions conserve every element the last species does not contain; and the rate of the last species taken by difference, as the chemistry model does, is the one the mechanism gives it up to a relative 4e-15.", "quantifier": "all states and rates, all three mechanisms; real arithmetic", "why_tests_cant": "conservation has to hold to the last digit at all states; a drift of one element accumulates slowly", "anchors": ["utilities/mechanisms/drm19/lib/src/spec_rates.c: eval_spec_rates", "utilities/mechanisms/gri30/lib/src/spec_rates.c: eval_spec_rates", "utilities/mechanisms/yao/lib/src/spec_rates.c: eval_spec_rates", "utilities/mechanisms/drm19/lib/src/dydt.c: dydt", "utilities/mechanisms/gri30/lib/src/dydt.c: dydt", "utilities/mechanisms/yao/lib/src/dydt.c: dydt"]}
{"id": "C62", "title": "Law of mass action", "statement": "The forward (reverse) rate of each reaction is a positive rate constant, depending on temperature and pressure only, times the concentrations of the reactants (products) of chem.cti raised to their coefficients.", "quantifier": "all temperatures and pressures greater than zero, all concentrations, all reactions of all three mechanisms; real arithmetic, any exp with positive values", "why_tests_cant": "678 generated formulas, each of which matters in some regime only", "anchors": ["utilities/mechanisms/drm19/lib/src/rxn_rates.c: eval_rxn_rates", "utilities/mechanisms/gri30/lib/src/rxn_rates.c: eval_rxn_rates", "utilities/mechanisms/yao/lib/src/rxn_rates.c: eval_rxn_rates", "utilities/mechanisms/drm19/chem.cti", "utilities/mechanisms/gri30/chem.cti", "utilities/mechanisms/yao/chem.cti"]}
{"id": "C63", "title": "Third-body and fall-off factors", "statement": "For concentrations that add up to p/(RT) the pressure modification of a three-body reaction is the sum of the concentrations weighted with the efficiencies of chem.cti, and that of a fall-off reaction is F Pr/(1 + Pr) with a positive broadening factor F and a reduced pressure Pr proportional to the weighted sum.", "quantifier": "all positive temperatures and pressures, all compositions, all pressure-dependent reactions; real arithmetic", "why_tests_cant": "an efficiency of the wrong species shows only in mixtures rich in it", "anchors": ["utilities/mechanisms/drm19/lib/src/rxn_rates_pres_mod.c: get_rxn_pres_mod", "utilities/mechanisms/gri30/lib/src/rxn_rates_pres_mod.c: get_rxn_pres_mod", "utilities/mechanisms/yao/lib/src/rxn_rates_pres_mod.c: get_rxn_pres_mod", "utilities/mechanisms/drm19/chem.cti", "utilities/mechanisms/gri30/chem.cti", "utilities/mechanisms/yao/chem.cti"]}
{"id": "C64", "title": "Concentrations of an ideal gas", "statement": "eval_conc returns the complement of the mass fractions, the mean molecular weight, the density of the ideal gas law and concentrations rho Y/W that add up to p/(RT); for mass fractions that are not negative and add up to at most one nothing it returns is negative.", "quantifier": "all temperatures, pressures and compositions; real arithmetic", "why_tests_cant": "a wrong weight of a trace species is invisible in typical mixtures", "anchors": ["utilities/mechanisms/drm19/lib/src/chem_utils.c: eval_conc", "utilities/mechanisms/gri30/lib/src/chem_utils.c: eval_conc", "utilities/mechanisms/yao/lib/src/chem_utils.c: eval_conc", "utilities/mechanisms/drm19/foam/thermo.foam", "utilities/mechanisms/gri30/foam/thermo.foam", "utilities/mechanisms/yao/foam/thermo.foam"]}
{"id": "C65", "title": "Enthalpy is conserved", "statement": "The temperature derivative of dydt balances the change of composition: mean heat capacity times dT/dt plus the sum of the specific enthalpies times the rates of change of the mass fractions is zero.", "quantifier": "all states with nonzero density and mean heat capacity; real arithmetic", "why_tests_cant": "a species left out of the sum or a wrong weight gives a small error in the temperature only", "anchors": ["utilities/mechanisms/drm19/lib/src/dydt.c: dydt", "utilities/mechanisms/gri30/lib/src/dydt.c: dydt", "utilities/mechanisms/yao/lib/src/dydt.c: dydt"]}
{"id": "C66", "title": "Absent species are not consumed", "statement": "If the mass fractions are not negative and add up to at most one, the rate of change of a species with mass fraction zero is not negative.", "quantifier": "all such states, species and mechanisms; real arithmetic", "why_tests_cant": "needs every face of the composition simplex for every species", "anchors": ["utilities/mechanisms/drm19/lib/src/dydt.c: dydt", "utilities/mechanisms/gri30/lib/src/dydt.c: dydt", "utilities/mechanisms/yao/lib/src/dydt.c: dydt", "utilities/mechanisms/drm19/lib/src/rxn_rates.c", "utilities/mechanisms/gri30/lib/src/rxn_rates.c", "utilities/mechanisms/yao/lib/src/rxn_rates.c", "utilities/mechanisms/drm19/lib/src/rxn_rates_pres_mod.c", "utilities/mechanisms/gri30/lib/src/rxn_rates_pres_mod.c", "utilities/mechanisms/yao/lib/src/rxn_rates_pres_mod.c", "utilities/mechanisms/drm19/lib/src/spec_rates.c", "utilities/mechanisms/gri30/lib/src/spec_rates.c", "utilities/mechanisms/yao/lib/src/spec_rates.c"]}
{"id": "C67", "title": "OpenFOAM and library data agree", "statement": "The species of species.foam are those of the mechanism library in the same order; the elements of thermo.foam are the atoms of chem.cti; the molecular weights are those of the formulas up to a relative 1e-15.", "quantifier": "all species of all three mechanisms", "why_tests_cant": "a permuted species list still runs and gives plausible results", "anchors": ["utilities/mechanisms/drm19/foam/species.foam", "utilities/mechanisms/gri30/foam/species.foam", "utilities/mechanisms/yao/foam/species.foam", "utilities/mechanisms/drm19/foam/thermo.foam", "utilities/mechanisms/gri30/foam/thermo.foam", "utilities/mechanisms/yao/foam/thermo.foam", "utilities/mechanisms/drm19/chem.cti", "utilities/mechanisms/gri30/chem.cti", "utilities/mechanisms/yao/chem.cti", "utilities/mechanisms/drm19/lib/src/mechanism.h", "utilities/mechanisms/gri30/lib/src/mechanism.h", "utilities/mechanisms/yao/lib/src/mechanism.h"]}
{"id": "C68", "title": "Mole and mass fractions convert back and forth", "statement": "mole2mass gives mass fractions X W divided by the mean weight, mass2mole inverts it and is inverted by it, and getDensity returns the density of the ideal gas law.", "quantifier": "all mole and mass fractions with nonzero mean weight; real arithmetic", "why_tests_cant": "unrolled sums with one literal per species", "anchors": ["utilities/mechanisms/drm19/lib/src/mass_mole.c: mole2mass, mass2mole, getDensity", "utilities/mechanisms/gri30/lib/src/mass_mole.c: mole2mass, mass2mole, getDensity", "utilities/mechanisms/yao/lib/src/mass_mole.c: mole2mass, mass2mole, getDensity"]}
{"id": "C69", "title": "Reordering of species", "statement": "apply_mask brings an array from the species order of chem.cti into that of the library, and apply_reverse_mask is its inverse.", "quantifier": "all arrays with one element per species", "why_tests_cant": "a rotation in the wrong direction is its own inverse only for two elements", "anchors": ["utilities/mechanisms/drm19/lib/src/mechanism.c: apply_mask, apply_reverse_mask", "utilities/mechanisms/gri30/lib/src/mechanism.c: apply_mask, apply_reverse_mask", "utilities/mechanisms/yao/lib/src/mechanism.c: apply_mask, apply_reverse_mask"]}
{"id": "C70", "title": "Heat capacity and enthalpy", "statement": "eval_cp and eval_h return, for every species, the NASA polynomials of chem.cti for heat capacity and enthalpy per unit mass, with the low-temperature coefficients up to the common temperature and the high-temperature ones above it; the derivative of the enthalpy is the heat capacity.", "quantifier": "all species of all three mechanisms, all positive temperatures; real arithmetic, up to 4e-15 of the terms", "why_tests_cant": "hundreds of literals, two branches per species; a wrong digit gives plausible values", "anchors": ["utilities/mechanisms/drm19/lib/src/chem_utils.c: eval_cp, eval_h", "utilities/mechanisms/gri30/lib/src/chem_utils.c: eval_cp, eval_h", "utilities/mechanisms/yao/lib/src/chem_utils.c: eval_cp, eval_h", "utilities/mechanisms/drm19/chem.cti", "utilities/mechanisms/gri30/chem.cti", "utilities/mechanisms/yao/chem.cti"]}
{"id": "C71", "title": "Positive heat capacity", "statement": "Between 200 and 5000 K every species has a heat capacity of at least 2.4 R/W and the mean heat capacity of a physical state is positive, so the division in the temperature equation is defined and dT/dt is the heat released by the reactions over density and mean heat capacity.", "quantifier": "all states with non-negative mass fractions, 200-5000 K; all three mechanisms; real arithmetic", "why_tests_cant": "a continuum of temperatures and mixtures", "anchors": ["utilities/mechanisms/drm19/lib/src/chem_utils.c: eval_cp", "utilities/mechanisms/gri30/lib/src/chem_utils.c: eval_cp", "utilities/mechanisms/yao/lib/src/chem_utils.c: eval_cp", "utilities/mechanisms/drm19/lib/src/dydt.c", "utilities/mechanisms/gri30/lib/src/dydt.c", "utilities/mechanisms/yao/lib/src/dydt.c"]}
{"id": "C72", "title": "Rate constants", "statement": "The forward rate constants in eval_rxn_rates are A T^b exp(-E/RT) with the parameters of chem.cti converted to SI units, and the reverse ones are the forward ones over the equilibrium constant of the NASA polynomials at the same temperature.", "quantifier": "all reactions of all three mechanisms, all positive temperatures, all concentrations; real arithmetic, relative error about 1e-14", "why_tests_cant": "thousands of literals; a wrong digit gives plausible rates", "anchors": ["utilities/mechanisms/drm19/lib/src/rxn_rates.c: eval_rxn_rates", "utilities/mechanisms/gri30/lib/src/rxn_rates.c: eval_rxn_rates", "utilities/mechanisms/yao/lib/src/rxn_rates.c: eval_rxn_rates", "utilities/mechanisms/drm19/chem.cti", "utilities/mechanisms/gri30/chem.cti", "utilities/mechanisms/yao/chem.cti"]}
{"id": "C73", "title": "Second law", "statement": "A reversible reaction runs forward if its affinity (from the chemical potentials of the NASA data) is positive, backward if it is negative and is balanced at equilibrium; together the reversible reactions do not increase the Gibbs energy at constant temperature and pressure.", "quantifier": "all positive concentrations and temperatures; all three mechanisms; real arithmetic, up to the rounding of the constants", "why_tests_cant": "thermodynamic consistency involves all rate constants and thermodynamic data at once", "anchors": ["utilities/mechanisms/drm19/lib/src/rxn_rates.c: eval_rxn_rates", "utilities/mechanisms/gri30/lib/src/rxn_rates.c: eval_rxn_rates", "utilities/mechanisms/yao/lib/src/rxn_rates.c: eval_rxn_rates", "utilities/mechanisms/drm19/lib/src/spec_rates.c: eval_spec_rates", "utilities/mechanisms/gri30/lib/src/spec_rates.c: eval_spec_rates", "utilities/mechanisms/yao/lib/src/spec_rates.c: eval_spec_rates"]}
{"id": "C74", "title": "Fall-off", "statement": "get_rxn_pres_mod multiplies a fall-off reaction by F Pr/(1+Pr), Pr = k0 [M]/kinf, where k0 and kinf are the low- and high-pressure Arrhenius constants of chem.cti in SI units, and F is the Troe function with the A, T3, T1, T2 of chem.cti (1 if there are none).", "quantifier": "all 63 fall-off reactions of the three mechanisms, all positive temperatures and pressures, all concentrations that satisfy the ideal gas law; real arithmetic, relative error of k0 and kinf about 1e-14", "why_tests_cant": "every reaction has its own literals; a wrong one shows at some temperatures and pressures only", "anchors": ["utilities/mechanisms/drm19/lib/src/rxn_rates_pres_mod.c: get_rxn_pres_mod", "utilities/mechanisms/gri30/lib/src/rxn_rates_pres_mod.c: get_rxn_pres_mod", "utilities/mechanisms/yao/lib/src/rxn_rates_pres_mod.c: get_rxn_pres_mod", "utilities/mechanisms/drm19/chem.cti", "utilities/mechanisms/gri30/chem.cti", "utilities/mechanisms/yao/chem.cti"]}
{"id": "C75", "title": "Temperature column of the Jacobian", "statement": "eval_jacob never reads an indeterminate value that matters and fills the temperature column with, for every species, its molecular weight times the sum over the reactions of the molecules formed times one number per reaction; for every elementary and three-body reaction this number is the derivative with respect to temperature, at constant pressure and mass fractions, of the rate of progress over the density that eval_rxn_rates, get_rxn_pres_mod and eval_conc compute. For a species in no fall-off reaction the element is thus the derivative of the element of dydt.", "quantifier": "all three mechanisms, all reactions without fall-off, all positive temperatures other than switch temperatures of the NASA polynomials, all positive pressures, all mass fractions, any content of the uninitialised array dBdT; real arithmetic, error 4e-15 of the sum of the absolute values of the terms", "why_tests_cant": "every reaction has its own generated statement with its own literals; finite differences cannot tell a wrong digit from truncation error", "anchors": ["utilities/mechanisms/drm19/lib/src/jacob.c: eval_jacob", "utilities/mechanisms/gri30/lib/src/jacob.c: eval_jacob", "utilities/mechanisms/yao/lib/src/jacob.c: eval_jacob", "utilities/mechanisms/drm19/lib/src/jacobs/jacob_0.c: eval_jacob_0", "utilities/mechanisms/gri30/lib/src/jacobs/jacob_0.c: eval_jacob_0", "utilities/mechanisms/yao/lib/src/jacobs/jacob_0.c: eval_jacob_0"]}
{"id": "C76", "title": "Fall-off reactions in the temperature column of the Jacobian", "statement": "For a fall-off reaction the number that eval_jacob uses in the temperature column is the derivative with respect to temperature, at constant pressure and mass fractions, of the product of the unmodified rate of progress over the density and the Lindemann or Troe fall-off factor, where the factor has the low- and high-pressure rate constants, the efficiencies and the Troe parameters of chem.cti up to rounding. It is zero if the reaction has no rate.", "quantifier": "all three mechanisms, all fall-off reactions, all positive temperatures other than switch temperatures of the NASA polynomials, all positive pressures, all mass fractions for which reduced pressure and centre exceed the cut-off 1e-300 of the logarithms and the denominator of the Troe function is not zero; real arithmetic, error 4e-15 of the sum of the absolute values of the terms", "why_tests_cant": "the expression of a Troe reaction is a page long, with about forty literals of its own for each of 63 reactions; finite differences lose half of the digits and a wrong literal in a term that is small at the tested state does not show", "anchors": ["utilities/mechanisms/drm19/lib/src/jacobs/jacob_0.c: eval_jacob_0", "utilities/mechanisms/gri30/lib/src/jacobs/jacob_0.c: eval_jacob_0", "utilities/mechanisms/yao/lib/src/jacobs/jacob_0.c: eval_jacob_0", "utilities/mechanisms/drm19/lib/src/rxn_rates_pres_mod.c: get_rxn_pres_mod"]}
{"id": "C77", "title": "Temperature equation in the Jacobian", "statement": "The first element of the temperature column that eval_jacob fills (the change of dT/dt with temperature) is the derivative of the first element of dydt with respect to temperature at constant pressure and mass fractions, up to rounding of the literals and up to the errors of the other elements of the column weighted with the enthalpies over the heat capacity; hence it is the derivative when no fall-off reaction runs. For gri30, where the last species reacts, this is false.", "quantifier": "drm19 and yao, all temperatures between 200 and 5000 K other than switch temperatures of the NASA polynomials, all positive pressures, all mass fractions, any content of the uninitialised array dBdT; real arithmetic. gri30: refuted with a state", "why_tests_cant": "the solver converges with a wrong Jacobian, only more slowly; a finite difference at a state where N2 is inert does not show the overwritten sum", "anchors": ["utilities/mechanisms/drm19/lib/src/jacob.c: eval_jacob", "utilities/mechanisms/yao/lib/src/jacob.c: eval_jacob", "utilities/mechanisms/gri30/lib/src/jacob.c: eval_jacob", "utilities/mechanisms/gri30/lib/src/jacobs/jacob_4.c: eval_jacob_4"]}
{"id": "C78", "title": "Mass fraction columns of the Jacobian", "statement": "eval_jacob of drm19 fills all 441 elements of a zeroed array and never reads an indeterminate value that matters. Its element for species k in the column of mass fraction j is the derivative of the element of dydt for species k with respect to mass fraction j at constant pressure and temperature, the last mass fraction making up the rest, for every species in no fall-off reaction, or only in such that cannot run whatever mass fraction j is.", "quantifier": "drm19, all 20 columns, all positive temperatures and pressures, all non-negative mass fractions of sum at most 1, any content of the uninitialised array dBdT; real arithmetic, error of 6e-15 (2^-50 times 6) of the sum of the absolute values of the terms plus the relative rounding of the equilibrium constant for the reverse terms", "why_tests_cant": "84 reactions times 20 columns, each with generated statements and literals of its own; the solver converges with a wrong Jacobian, only more slowly", "anchors": ["utilities/mechanisms/drm19/lib/src/jacob.c: eval_jacob", "utilities/mechanisms/drm19/lib/src/jacobs/jacob_0.c: eval_jacob_0", "utilities/mechanisms/drm19/lib/src/jacobs/jacob_1.c: eval_jacob_1", "utilities/mechanisms/drm19/lib/src/jacobs/jacob_2.c: eval_jacob_2", "utilities/mechanisms/drm19/lib/src/jacobs/jacob_3.c: eval_jacob_3"]}
{"id": "C79", "title": "Contributions of the reactions to the mass fraction columns", "statement": "Every element of eval_jacob of drm19 in the column of a mass fraction and the row of a species is the molecular weight of the species times the sum over the reactions of the molecules formed times one number per reaction and column. For a reaction without fall-off this number is the derivative of its rate of progress over the density with respect to the mass fraction; for a fall-off reaction it is the derivative of the product of the unmodified rate over the density and the Troe factor by the product rule, with the parameters and efficiencies of chem.cti up to rounding.", "quantifier": "drm19, all reactions, all columns and rows, all positive temperatures and pressures, all non-negative mass fractions of sum at most 1; for fall-off reactions where reduced pressure and centre exceed the cut-off 1e-300 of the logarithms and the denominator of the Troe function is not zero; real arithmetic up to the rounding of the literals", "why_tests_cant": "the conditions under which a term of a fall-off reaction is visible in a finite difference differ from reaction to reaction", "anchors": ["utilities/mechanisms/drm19/lib/src/jacob.c: eval_jacob", "utilities/mechanisms/drm19/lib/src/jacobs/jacob_0.c: eval_jacob_0", "utilities/mechanisms/drm19/lib/src/jacobs/jacob_1.c: eval_jacob_1", "utilities/mechanisms/drm19/lib/src/jacobs/jacob_2.c: eval_jacob_2", "utilities/mechanisms/drm19/lib/src/jacobs/jacob_3.c: eval_jacob_3", "utilities/mechanisms/drm19/lib/src/rxn_rates_pres_mod.c: get_rxn_pres_mod"]}
{"id": "C80", "title": "Temperature row of the Jacobian", "statement": "The first element of the column of a mass fraction that eval_jacob of drm19 fills (the change of dT/dt with the mass fraction) is the derivative of the first element of dydt with respect to the mass fraction at constant pressure and temperature, up to rounding of the molecular weights and up to the errors of the other elements of the column weighted with the enthalpies over the heat capacity. Hence a whole column is the derivative of dydt where no fall-off reaction can run whatever the mass fraction is.", "quantifier": "drm19, all 20 columns, all temperatures between 200 and 5000 K, all positive pressures, all non-negative mass fractions of sum at most 1, any content of the uninitialised array dBdT; real arithmetic", "why_tests_cant": "the statements differ from species to species and a wrong one only slows the integration down", "anchors": ["utilities/mechanisms/drm19/lib/src/jacob.c: eval_jacob", "utilities/mechanisms/drm19/lib/src/jacobs/jacob_3.c: eval_jacob_3"]}
{"id": "C81", "title": "Entry values of the Jacobian arrays", "statement": "Whatever the temperature, pressure, composition and contents of its arrays, and in any arithmetic, eval_jacob reads only variables that have been set and stays within its arrays. It leaves the rows of species that take part in no reaction (argon) as it finds them, and nothing else that the output array or the uninitialised local array dBdT hold on entry shows in the result. So it is false that it overwrites all of its output: the caller has to zero it, as jacobian does.", "quantifier": "all arithmetics and mathematics libraries, all states, all entry contents of jac and dBdT; the whole array for drm19, the temperature column for gri30 and yao", "why_tests_cant": "Whether an indeterminate value leaks into the result depends on what happens to be on the stack; freshly mapped memory is zero, so tests pass.", "anchors": ["utilities/mechanisms/drm19/lib/src/jacob.c: eval_jacob", "utilities/mechanisms/gri30/lib/src/jacob.c: eval_jacob", "utilities/mechanisms/yao/lib/src/jacob.c: eval_jacob", "utilities/mechanisms/drm19/lib/src/jacobs/jacob_3.c: eval_jacob_3", "src/thermophysicalModels/chemistryModel/chemistryModel/loadBalanced_pyJacChemistryModel/loadBalanced_pyJacChemistryModel.C: jacobian"]}
{"id": "C82", "title": "The system that the ODE solver integrates", "statement": "Linked with one of the mechanism libraries, derivatives of the pyJac chemistry model returns the rates that the C sources of the library compute at the mass fractions cut off at zero, and zero for the pressure; these rates conserve every element that the last species does not contain. With drm19, jacobian returns by rows what eval_jacob writes by columns, with zeros for the pressure, and its columns for the temperature and for positive mass fractions are the derivatives of what derivatives returns where no fall-off reaction can run.", "quantifier": "all states (lists of temperature, mass fractions, pressure); any arithmetic for the first parts, real arithmetic for conservation and derivatives", "why_tests_cant": "A transposed or shifted index between library and model only slows the ODE solver down; finite differences check single states.", "anchors": ["src/thermophysicalModels/chemistryModel/chemistryModel/loadBalanced_pyJacChemistryModel/loadBalanced_pyJacChemistryModel.C: derivatives, jacobian", "utilities/mechanisms/drm19/lib/src/dydt.c: dydt", "utilities/mechanisms/drm19/lib/src/jacob.c: eval_jacob", "utilities/mechanisms/gri30/lib/src/dydt.c: dydt", "utilities/mechanisms/yao/lib/src/dydt.c: dydt"]}
{"id": "C83", "title": "Pressure dependence", "statement": "Reaction rates of the mechanism libraries depend on the pressure through the concentrations only. At fixed temperature and mass fractions a change of the pressure by a factor changes density and concentrations by that factor, forward and reverse rates by its power with the number of molecules that react, and the factor of a three-body reaction by that factor; so the derivative along the pressure of the rate of progress over the density is known for every reaction without fall-off. jacobian has zeros instead of these derivatives (claiming the contrary is refuted), but as derivatives keeps the pressure, every linear system a x - J x = b with no pressure component in b has the same solutions whatever that column holds.", "quantifier": "all three mechanisms, all temperatures, pressures, compositions and factors; any arithmetic for the first part; all right-hand sides and columns for the last", "why_tests_cant": "Tests run at a few pressures; that a missing column never matters is a statement about all right-hand sides and all columns.", "anchors": ["utilities/mechanisms/drm19/lib/src/rxn_rates.c: eval_rxn_rates", "utilities/mechanisms/drm19/lib/src/rxn_rates_pres_mod.c: get_rxn_pres_mod", "utilities/mechanisms/drm19/lib/src/chem_utils.c: eval_conc", "src/thermophysicalModels/chemistryModel/chemistryModel/loadBalanced_pyJacChemistryModel/loadBalanced_pyJacChemistryModel.C: jacobian, derivatives"]}
{"id": "C84", "title": "Normalisation of compositions in doubles", "statement": "In IEEE doubles the composition that the pyJac cell solve returns, and the one handed to the mechanism, has no negative entry but possibly the last, all entries are finite, and its exact sum differs from one by at most (1 + 2 n S) 2^-53 for n species, where S is the sum of all but the last entry. The stored reaction rates of a cell are finite and their sum differs from zero only by the density over the time step times the error of the given composition plus such a rounding error. They need not cancel exactly.", "quantifier": "all integrators and their outcomes with finite mass fractions, up to 2^20 species, all fields, ranks and cells; densities up to 2^100, time steps from 2^-100", "why_tests_cant": "Rounding depends on every bit of every mass fraction; a bound for all of them needs a proof over all doubles.", "anchors": ["src/thermophysicalModels/chemistryModel/chemistrySolver/ode_pyJac/ode_pyJac.C: solve", "src/thermophysicalModels/chemistryModel/chemistryModel/loadBalanced_pyJacChemistryModel/loadBalanced_pyJacChemistryModel.C: derivatives", "src/thermophysicalModels/chemistryModel/chemistryModel/loadBalancedChemistryModel/loadBalancedChemistryModel.C: solveSingle"]}
{"id": "C85", "title": "Transfers and loads after an exchange in doubles", "statement": "With times and plan computed in IEEE doubles, the transfers asked of a rank sum up to at most its load above the mean, those to a rank to at most its load below the mean, each up to a rounding error relative to the mean that is bounded in the number of ranks, and every transfer is at least 0.98 % of the mean. After the exchange no rank has more measured time than some rank had before; only ranks above the mean send, and they keep at least the mean, only ranks below the mean receive, and they get at most to the mean, both up to the rounding error; other ranks keep their time.", "quantifier": "all finite non-negative times, up to 2^20 ranks with up to 2^20 problems each, up to 2^890 seconds per rank, mean from 2 microseconds; any sort that meets its contract, any faithful serialisation", "why_tests_cant": "Rounding depends on every bit of every measured time and errors add up over all ranks and problems; a bound for all of them needs a proof over all doubles.", "anchors": ["src/thermophysicalModels/chemistryModel/loadBalancing/LoadBalancer.C: getOperations, timesToProblemCounts, updateState", "src/thermophysicalModels/chemistryModel/loadBalancing/LoadBalancerBase.C: computeLoad, getMean"]}
{"id": "C86", "title": "Functions of the mechanism libraries for constant volume", "statement": "eval_u, eval_cv and eval_conc_rho are defined for every argument. eval_conc_rho called with the density that eval_conc has computed returns the same last mass fraction, mean weight and concentrations, in every arithmetic, and without rounding it returns the pressure that eval_conc was given; the same holds starting from a density. For every species the two heat capacities differ by the specific gas constant R/W and enthalpy and internal energy by R/W times the temperature, with R/W right to 1e-15 and the same number in both; the heat capacity at constant volume is positive (at least 1.39 R/W) between 200 and 5000 K and is the derivative of the internal energy.", "quantifier": "all temperatures, pressures, densities and compositions, the three mechanisms drm19, gri30 and yao; positivity for 200 to 5000 K", "why_tests_cant": "Each species has two polynomials with their own literals in four functions; a wrong digit in one of some two thousand literals shows only for that species, at that side of the switching temperature.", "anchors": ["utilities/mechanisms/drm19/lib/src/chem_utils.c: eval_conc_rho, eval_u, eval_cv", "utilities/mechanisms/gri30/lib/src/chem_utils.c: eval_conc_rho, eval_u, eval_cv", "utilities/mechanisms/yao/lib/src/chem_utils.c: eval_conc_rho, eval_u, eval_cv"]}
{"id": "C87", "title": "Time steps in doubles", "statement": "In IEEE doubles the time step returned by the field solve is at most great and no individually solved cell (no cell at all when mapping is off) stores a smaller chemical time step, even when the cell solver proposes NaN. When every call of the cell solver consumes a finite time between zero and what it was asked for, the consumed times of a cell add up to its time step, short of it by at most small plus one rounding error of the time step per call, above it by at most one rounding error per call.", "quantifier": "all doubles in the fields, all cell solvers, all numbers of ranks, cells and calls", "why_tests_cant": "Rounding errors add up over an unknown number of calls, and comparisons with NaN depend on the order of the cells.", "anchors": ["src/thermophysicalModels/chemistryModel/chemistryModel/loadBalancedChemistryModel/loadBalancedChemistryModel.C: updateReactionRates", "src/thermophysicalModels/chemistryModel/chemistryModel/loadBalancedChemistryModel/loadBalancedChemistryModel.C: solveSingle"]}
{"id": "C88", "title": "Mixture fraction in doubles", "statement": "Computed in IEEE doubles the mixture fraction of a composition is finite and differs from Bilger's mixture fraction by at most 90 n u (1+|Z|)/|D|, n being the number of species, u half an ulp of 1, Z the exact mixture fraction and D the difference of the exact Bilger sums of fuel and oxidiser. It is exactly 0 for the oxidiser and exactly 1 for the fuel. The mapper decides as with exact arithmetic unless the mixture fraction is within this bound of the tolerance.", "quantifier": "up to 2^20 species with up to 2^20 atoms of each element and 2C+H/2+O at most the molecular weight; finite non-negative compositions of sum at most 2; Bilger sums of the streams at least 1/1000 apart", "why_tests_cant": "Rounding depends on every bit of every mass fraction, and cancellation in the two differences amplifies it.", "anchors": ["src/thermophysicalModels/chemistryModel/refMapping/mixtureFraction.C: initialize, massFractionToMixtureFraction", "src/thermophysicalModels/chemistryModel/refMapping/mixtureFractionRefMapper.C: shouldMap"]}
{"id": "C89", "title": "ODE driver in doubles", "statement": "For an integration from 0 to xEnd in IEEE doubles the driver's end test holds exactly at positions not before xEnd, and a trial step is cut exactly if it leads beyond xEnd, in spite of rounded differences and products. With a step method that goes forward, at most to the rounded sum of position and trial step, and proposes positive steps, an integration that returns has ended at a position between xEnd and xEnd (1+3u), u being half an ulp of 1. With any step method whatever, an integration that returns has not ended before xEnd, if its last position is a number from 0 to 2^402.", "quantifier": "all xEnd from 2^-400 to 2^400, all positions up to 2^402, all trial steps up to 2^400, all such step methods, all numbers of steps", "why_tests_cant": "The tests multiply two rounded differences, which may round, cancel or underflow for any pair of doubles; premature ends occur only for particular bits.", "anchors": ["src/ODE_DLB/ODESolvers/ODESolver/ODESolver.C: solve(xStart,xEnd,y,li,dxTry)"]}
{"id": "C90", "title": "Heat release in doubles", "statement": "In IEEE doubles the heat release rate of a cell is a finite number that differs from minus the exact sum over the species of formation enthalpy (at 298.15 K) times reaction rate by at most n (3 u M + 2^-1074), M being the sum of the magnitudes of the n terms and u half an ulp of 1. If every term releases heat, the heat release rate is positive and has relative error at most 4 n u.", "quantifier": "all mechanisms of up to 2^20 species with finite enthalpies, all cell counts, all finite rate fields whose terms sum up to at most 2^700 (and, for the second claim, to at least 2^-1000)", "why_tests_cant": "Rounding errors of a sum depend on every bit of every rate and enthalpy; a lost term, a wrong order of subtraction or a float in between shows only as a slightly larger error on particular data.", "anchors": ["src/thermophysicalModels/chemistryModel/chemistryModel/loadBalanced_pyJacChemistryModel/loadBalanced_pyJacChemistryModel.C: Qdot"]}
{"id": "C91", "title": "Error norms in doubles", "statement": "In IEEE doubles ODESolver::normalizeError is the largest ratio of error and tolerance over the components, up to a factor 1+5u and an underflow of 2^-1074 (u half an ulp of 1). Whenever seulex keeps a step and the numbers involved are finite and of moderate size, the last two extrapolations differ in every component by at most sqrt(n) (absTol + relTol |y0|) (1+14u), n being the number of equations. It is not true that an error that is not a number always shows in normalizeError: it is lost unless it belongs to the last component.", "quantifier": "all vectors of any length (up to 2^20 for seulex), all tolerances and states from 2^-400 to 2^400 (2^-200 to 2^200 for seulex), all systems, linear solvers, and numbers of steps", "why_tests_cant": "Rounding, underflow and the order of comparisons matter only for particular bits and for NaN in particular components.", "anchors": ["src/ODE_DLB/ODESolvers/ODESolver/ODESolver.C: normalizeError", "src/ODE_DLB/ODESolvers/seulex_LAPACK/seulex_LAPACK.C: solve"]}
{"id": "C92", "title": "Problem counts in doubles", "statement": "In IEEE doubles the problems chosen for each requested time have a true total cost of at most the time divided by 1 - 2 n u, n being their number and u half an ulp of 1; and unless the problems are used up, the requested time is less than the true total with the next problem times 1 + 2 (n+1) u.", "quantifier": "all lists of up to 2^20 problems of finite non-negative costs (sum up to 2^900), all lists of finite requested times", "why_tests_cant": "Whether one problem more fits depends on the last bits of a running sum over arbitrary measured times.", "anchors": ["src/thermophysicalModels/chemistryModel/loadBalancing/LoadBalancer.C: timesToProblemCounts", "src/thermophysicalModels/chemistryModel/loadBalancing/algorithms_DLB.H: count_while"]}
