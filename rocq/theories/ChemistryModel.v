(** Model of loadBalancedChemistryModel.[HC] (in
    src/thermophysicalModels/chemistryModel/chemistryModel/loadBalancedChemistryModel;
    "lbCM.C" below). *)
From Coq Require Import List Arith ZArith QArith Bool.
From Verif Require Import Outcome Arith Problem LoadBalancing Streams Comm MixtureFraction.
Import ListNotations.
Local Open Scope nat_scope.

(** Loop with a loop-carried state that collects one result per element; not a function
    of /repo (range-for with [append]). *)
Fixpoint mapS {E S T} (f : E -> S -> outcome (T * E)) (e : E) (l : list S)
  : outcome (list T * E) :=
  match l with
  | [] => Ok ([], e)
  | x :: r =>
    let* (y, e1) := f e x in
    let* (ys, e2) := mapS f e1 r in
    Ok (y :: ys, e2)
  end.

(** Loop over a list updating a state; not a function of /repo (range-for). *)
Fixpoint foldM {S T} (f : S -> T -> outcome S) (s : S) (l : list T) : outcome S :=
  match l with
  | [] => Ok s
  | x :: r => let* s1 := f s x in foldM f s1 r
  end.

Section Types.
  Context {A : Arith}.

  (** A ChemistryProblem object whose members may be indeterminate (ChemistryProblem.H:41-57). *)
  Record uproblem := mkU {
    u_c : list (option (num A));
    u_T : option (num A);
    u_p : option (num A);
    u_rho : option (num A);
    u_deltaTChem : option (num A);
    u_deltaT : option (num A);
    u_cpuTime : option (num A);
    u_cellid : option nat
  }.

  (** [ChemistryProblem(label nSpecie)], ChemistryProblem.H:45-48: [cpuTime] and the elements
      of [c] stay indeterminate. *)
  Definition u_sized (n : nat) : uproblem :=
    let z := Some (zero A) in mkU (repeat None n) z z z z z None (Some 0).

  (** Use of a ChemistryProblem: every member is read (when it is streamed,
      ChemistryProblem.H:72-85, or solved, lbCM.C:210-248). *)
  Definition u_read (u : uproblem) : outcome (problem A) :=
    let* c := mapM rd (u_c u) in
    let* T := rd (u_T u) in
    let* p := rd (u_p u) in
    let* rho := rd (u_rho u) in
    let* dtc := rd (u_deltaTChem u) in
    let* dt := rd (u_deltaT u) in
    let* cpu := rd (u_cpuTime u) in
    let* cell := rd (u_cellid u) in
    Ok (mkProblem c T p rho dtc dt cpu cell).

  (** A ChemistrySolution object whose members may be indeterminate
      (ChemistrySolution.H:41-67). *)
  Record usolution := mkUS {
    us_rr : list (num A);
    us_deltaTChem : option (num A);
    us_cpuTime : option (num A);
    us_cellid : option nat;
    us_rho : option (num A)
  }.

  (** [ChemistrySolution(label nspecie)], ChemistrySolution.H:46-49: [cpuTime] stays
      indeterminate. *)
  Definition us_sized (n : nat) : usolution :=
    mkUS (repeat (zero A) n) (Some (zero A)) None (Some 0) (Some (zero A)).

  (** Use of a ChemistrySolution: every member is read (streamed,
      ChemistrySolution.H:69-77, or stored, lbCM.C:251-274). *)
  Definition us_read (u : usolution) : outcome (solution A) :=
    let* dtc := rd (us_deltaTChem u) in
    let* cpu := rd (us_cpuTime u) in
    let* cell := rd (us_cellid u) in
    let* rho := rd (us_rho u) in
    Ok (mkSolution (us_rr u) dtc cpu cell rho).

  (** The arguments passed by reference to the cell solver
      [solve(p, T, c, li, deltaT, subDeltaT)], lbCM.C:229-236 (ode_pyJac.C:49-57).  [li] is
      the constant 0 and left out. *)
  Record kcell := mkCell {
    k_p : num A;
    k_T : num A;
    k_c : list (num A);
    k_dt : num A;
    k_sub : num A
  }.

  (** Case settings: [nSpecie()], [deltaTChemMax_], [chemistry_] (OpenFOAM chemistryModel),
      [balancer_.active()] and the mapper, lbCM.C:32-38. *)
  Record config := mkConfig {
    g_nSpecie : nat;
    g_dtcMax : num A;
    g_chem : bool;
    g_active : bool;
    g_mapper : mapper A
  }.

  (** Old-time fields of one rank read by [getProblems], lbCM.C:342-348, 364: mass fractions
      per species, temperature, pressure, density. *)
  Record fields := mkFields {
    f_Y : list (list (num A));
    f_T : list (num A);
    f_p : list (num A);
    f_rho : list (num A)
  }.

  (** Fields of one rank written by the model: RR, deltaTChem_ (OpenFOAM chemistryModel),
      cpuTimes_, refMap_ (lbCM.H:74-81). *)
  Record mstate := mkM {
    m_RR : list (list (num A));
    m_dtc : list (num A);
    m_cpu : list (num A);
    m_ref : list nat
  }.

  (** [DeltaTType]: a scalarField or a UniformField, lbCM.C:277-297. *)
  Inductive deltaT := DField (l : list (num A)) | DUniform (x : num A).

  (** [deltaT[celli]], lbCM.C:374. *)
  Definition dt_at (d : deltaT) (i : nat) : outcome (num A) :=
    match d with DField l => idx l i | DUniform x => Ok x end.
End Types.
Arguments uproblem A : clear implicits.
Arguments usolution A : clear implicits.
Arguments kcell A : clear implicits.
Arguments config A : clear implicits.
Arguments fields A : clear implicits.
Arguments mstate A : clear implicits.
Arguments deltaT A : clear implicits.

Section Model.
  Context {A : Arith} {H : Type}.

  (** The cell solver, [chemistryModel::solve(p,T,c,li,deltaT,subDeltaT)] of the derived class
      (lbCM.H:158-166), with the memory [H] of its mutable members. *)
  Variable kern : H -> kcell A -> outcome (kcell A * H).
  (** Bound on the iterations of the loop lbCM.C:226-238. *)
  Variable fuel : nat.
  Variable cfg : config A.

  (** What a rank carries along: solver memory and number of timer readings so far. *)
  Local Notation env := (H * nat)%type.

  (** The sub-stepping loop, lbCM.C:226-238. *)
  Fixpoint substeps (n : nat) (h : H) (timeLeft : num A) (x : kcell A)
    : outcome (kcell A * H) :=
    if nltb A (small A) timeLeft then
      match n with
      | O => Diverge
      | S n' =>
        let* (x', h') := kern h (mkCell (k_p x) (k_T x) (k_c x) timeLeft (k_sub x)) in
        substeps n' h' (nsub A timeLeft (k_dt x')) x'
      end
    else Ok (x, h).

  (** [(c - c0)*rho/deltaT] on fields, lbCM.C:240 (OpenFOAM field algebra; fields of
      different size are UB). *)
  Definition rates (c c0 : list (num A)) (rho dt : num A) : outcome (list (num A)) :=
    if length c =? length c0 then
      Ok (map (fun '(x, x0) => ndiv A (nmul A (nsub A x x0) rho) dt) (combine c c0))
    else UB.

  (** [solveSingle], lbCM.C:210-248.  [tm] gives the readings of the rank's timer.  The
      problem is modified in place by the code; the modified [pi], [Ti], [c], [deltaTChem]
      are not used by any caller and not returned. *)
  Definition solveSingle (tm : nat -> num A) (e : env) (p : problem A) (s : usolution A)
    : outcome (usolution A * env) :=
    let* (x, h') := substeps fuel (fst e) (p_deltaT p)
                      (mkCell (p_p p) (p_T p) (p_c p) (p_deltaT p) (p_deltaTChem p)) in
    let* rr := rates (k_c x) (p_c p) (p_rho p) (p_deltaT p) in
    Ok (mkUS rr (Some (foam_min A (k_sub x) (g_dtcMax cfg))) (Some (tm (snd e)))
          (Some (p_cellid p)) (Some (p_rho p)),
        (h', S (snd e))).

  (** Loop of [solveList], lbCM.C:328-331; [i] is the loop counter. *)
  Fixpoint solve_loop (tm : nat -> num A) (e : env) (todo : list (problem A)) (i : nat)
    (sols : list (usolution A)) : outcome (list (usolution A) * env) :=
    match todo with
    | [] => Ok (sols, e)
    | p :: r =>
      let* s := idx sols i in
      let* (s', e') := solveSingle tm e p s in
      let* sols' := setidx sols i s' in
      solve_loop tm e' r (S i) sols'
    end.

  (** [solveList], lbCM.C:318-333. *)
  Definition solveList (tm : nat -> num A) (e : env) (problems : list (problem A))
    : outcome (list (solution A) * env) :=
    let* (us, e') := solve_loop tm e problems 0
                       (repeat (us_sized (g_nSpecie cfg)) (length problems)) in
    let* sols := mapM us_read us in
    Ok (sols, e').

  (** [solveBuffer], lbCM.C:300-315. *)
  Definition solveBuffer (tm : nat -> num A) (e : env) (buffer : list (list (problem A)))
    : outcome (list (list (solution A)) * env) :=
    mapS (solveList tm) e buffer.

  (** [updateReactionRate], lbCM.C:447-458. *)
  Definition updateReactionRate (s : solution A) (i : nat) (m : mstate A)
    : outcome (mstate A) :=
    let* RR := foldM (fun RR j =>
                 let* row := idx RR j in
                 let* r := idx (s_rr s) j in
                 let* row' := setidx row i r in
                 setidx RR j row') (m_RR m) (seq 0 (g_nSpecie cfg)) in
    let* dtc := setidx (m_dtc m) i (foam_min A (s_deltaTChem s) (g_dtcMax cfg)) in
    Ok (mkM RR dtc (m_cpu m) (m_ref m)).

  (** [cpuTimes_[i] = t], lbCM.C:269 and 433. *)
  Definition set_cpu (m : mstate A) (i : nat) (t : num A) : outcome (mstate A) :=
    let* cpu := setidx (m_cpu m) i t in Ok (mkM (m_RR m) (m_dtc m) cpu (m_ref m)).

  (** [refMap_[i] = k], lbCM.C:383, 391, 424, 439. *)
  Definition set_ref (m : mstate A) (i k : nat) : outcome (mstate A) :=
    let* ref := setidx (m_ref m) i k in Ok (mkM (m_RR m) (m_dtc m) (m_cpu m) ref).

  (** [updateReactionRates], lbCM.C:251-274. *)
  Definition updateReactionRates (m : mstate A) (solutions : list (list (solution A)))
    : outcome (num A * mstate A) :=
    foldM (fun '(dtMin, m) s =>
             let* m1 := updateReactionRate s (s_cellid s) m in
             let dtMin' := foam_min A (s_deltaTChem s) dtMin in
             let* m2 := set_cpu m1 (s_cellid s) (s_cpuTime s) in
             Ok (dtMin', m2))
          (great A, m) (concat solutions).

  (** Mass fractions of a cell, lbCM.C:362-365. *)
  Definition cell_Y (F : fields A) (i : nat) : outcome (list (num A)) :=
    mapM (fun j => let* y := idx (f_Y F) j in idx y i) (seq 0 (g_nSpecie cfg)).

  (** The problem of a cell, lbCM.C:362-376. *)
  Definition cell_problem (F : fields A) (d : deltaT A) (m : mstate A) (i : nat)
    : outcome (uproblem A) :=
    let* Y := cell_Y F i in
    let* T := idx (f_T F) i in
    let* p := idx (f_p F) i in
    let* rho := idx (f_rho F) i in
    let* dtc := idx (m_dtc m) i in
    let* dt := dt_at d i in
    let* cpu := idx (m_cpu m) i in
    Ok (mkU (map Some Y) (Some T) (Some p) (Some rho) (Some dtc) (Some dt) (Some cpu) (Some i)).

  (** State of the loop over cells in [getProblems]: [solved_problems], [mapped_problems],
      [counter] (lbCM.C:352-359). *)
  Record lists := mkL {
    l_solved : list (uproblem A);
    l_mapped : list (uproblem A);
    l_counter : nat
  }.

  (** Body of the loop over cells, lbCM.C:361-394. *)
  Definition cell_step (F : fields A) (d : deltaT A) (lm : lists * mstate A) (i : nat)
    : outcome (lists * mstate A) :=
    let (l, m) := lm in
    let* u := cell_problem F d m i in
    let* Y := mapM rd (u_c u) in
    let* b := shouldMap (g_mapper cfg) Y in
    if b then
      let* m' := set_ref m i 1 in
      Ok (mkL (l_solved l) (l_mapped l ++ [u]) (l_counter l), m')
    else
      let* solved := setidx (l_solved l) (l_counter l) u in
      let* m' := set_ref m i 2 in
      Ok (mkL solved (l_mapped l) (S (l_counter l)), m').

  (** Body of the loop of [map], lbCM.C:426-441. *)
  Definition map_step (refSolution : solution A) (refT : num A)
    (sm : list (uproblem A) * mstate A) (u : uproblem A)
    : outcome (list (uproblem A) * mstate A) :=
    let (solved, m) := sm in
    let* T := rd (u_T u) in
    let* cell := rd (u_cellid u) in
    if temperatureWithinRange (g_mapper cfg) T refT then
      let* m1 := updateReactionRate refSolution cell m in
      let* m2 := set_cpu m1 cell (s_cpuTime refSolution) in
      Ok (solved, m2)
    else
      let* m' := set_ref m cell 2 in
      Ok (solved ++ [u], m').

  (** [map], lbCM.C:410-445. *)
  Definition map_cells (tm : nat -> num A) (e : env)
    (mapped solved : list (uproblem A)) (m : mstate A)
    : outcome (list (uproblem A) * mstate A * env) :=
    match mapped with
    | [] => Ok (solved, m, e)
    | u0 :: _ =>
      let* refProblem := u_read u0 in
      let refT := p_T refProblem in
      let* (us, e') := solveSingle tm e refProblem (us_sized (g_nSpecie cfg)) in
      let* refSolution := us_read us in
      let* m1 := set_ref m (p_cellid refProblem) 0 in
      let* (solved', m2) := foldM (map_step refSolution refT) (solved, m1) mapped in
      Ok (solved', m2, e')
    end.

  (** [getProblems], lbCM.C:337-407. *)
  Definition getProblems (dbg : bool) (tm : nat -> num A) (e : env)
    (F : fields A) (d : deltaT A) (m : mstate A)
    : outcome (list (problem A) * mstate A * env) :=
    let n := length (f_p F) in
    let* (l, m1) := foldM (cell_step F d)
                      (mkL (repeat (u_sized (g_nSpecie cfg)) n) [] 0, m)
                      (seq 0 (length (f_T F))) in
    let solved := firstn (l_counter l) (l_solved l) in
    let* _ := runtime_assert dbg (length solved + length (l_mapped l) =? n) in
    let* (us, m2, e') := map_cells tm e (l_mapped l) solved m1 in
    let* ps := mapM u_read us in
    Ok (ps, m2, e').

  (** ** All ranks *)

  (** What one rank brings to a call of [solve]. *)
  Record rankin := mkIn { r_fields : fields A; r_dt : deltaT A; r_state : mstate A; r_env : env }.

  (** What one rank has after a call of [solve]. *)
  Record rankout := mkOut { o_dtmin : num A; o_state : mstate A; o_env : env }.

  (** First, local phase of [solve<DeltaTType>], lbCM.C:154-156. *)
  Definition phase_get (dbg : bool) (tms : nat -> nat -> num A) (ranks : list rankin)
    : outcome (list (list (problem A) * mstate A * env)) :=
    mapM (fun '(i, r) =>
            getProblems dbg (tms i) (r_env r) (r_fields r) (r_dt r) (r_state r)) (enum ranks).

  (** Solving phase on a rank in a balanced run, lbCM.C:171-174: own problems first, then
      the guests. *)
  Definition phase_solve (tm : nat -> num A) (e : env) (own : list (problem A))
    (guests : list (list (problem A)))
    : outcome (list (solution A) * list (list (solution A)) * env) :=
    let* (os, e1) := solveList tm e own in
    let* (gs, e2) := solveBuffer tm e1 guests in
    Ok (os, gs, e2).

  (** Branch of [solve<DeltaTType>] with balancing, lbCM.C:162-179, on all ranks; [got] is
      the result of [phase_get], the result holds [incomingSolutions] of each rank. *)
  Definition solve_balanced (dbg par : bool) (sortf : list (load A) -> list (load A))
    (tms : nat -> nat -> num A) (got : list (list (problem A) * mstate A * env))
    : outcome (list (list (list (solution A)) * env)) :=
    let probs := map (fun '(ps, _, _) => ps) got in
    let* sts := updateState dbg sortf probs in
    let* guests := balance (wr_list wr_problem) (rd_list rd_problem) par sts probs in
    let* owns := mapM (fun '(st, ps) => getRemaining st ps) (combine sts probs) in
    let* sols := mapM (fun '(i, ((_, _, e), (own, gs))) => phase_solve (tms i) e own gs)
                   (enum (combine got (combine owns guests))) in
    let* back := unbalance (wr_list wr_solution) (rd_list rd_solution) par sts
                   (map (fun '(_, gs, _) => gs) sols) in
    Ok (map (fun '((os, _, e), b) => (b ++ [os], e)) (combine sols back)).

  (** Branch without balancing, lbCM.C:183-186, on all ranks. *)
  Definition solve_local (tms : nat -> nat -> num A)
    (got : list (list (problem A) * mstate A * env))
    : outcome (list (list (list (solution A)) * env)) :=
    mapM (fun '(i, (ps, _, e)) =>
            let* (os, e') := solveList (tms i) e ps in Ok ([os], e')) (enum got).

  (** Last phase, lbCM.C:206, on all ranks. *)
  Definition phase_update (got : list (list (problem A) * mstate A * env))
    (solved : list (list (list (solution A)) * env)) : outcome (list rankout) :=
    mapM (fun '((_, m, _), (inc, e)) =>
            let* (dt, m') := updateReactionRates m inc in Ok (mkOut dt m' e))
         (combine got solved).

  (** [solve<DeltaTType>], lbCM.C:135-207, run by all ranks.  [par]: Pstream::parRun();
      [sortf]: std::sort.  The timers for logging and the log output (lines 142-147,
      189-204) are left out. *)
  Definition solve_all (dbg par : bool) (sortf : list (load A) -> list (load A))
    (tms : nat -> nat -> num A) (ranks : list rankin) : outcome (list rankout) :=
    if negb (g_chem cfg) then
      Ok (map (fun r => mkOut (great A) (r_state r) (r_env r)) ranks)
    else
      let* got := phase_get dbg tms ranks in
      let* solved := (if g_active cfg then solve_balanced dbg par sortf tms got
                      else solve_local tms got) in
      phase_update got solved.

  (** [solve(const scalar deltaT)], lbCM.C:287-297, run by all ranks with the same
      [deltaT]. *)
  Definition solve_scalar (dbg par : bool) (sortf : list (load A) -> list (load A))
    (tms : nat -> nat -> num A) (dt : num A) (ranks : list rankin) : outcome (list rankout) :=
    let* outs := solve_all dbg par sortf tms
                   (map (fun r => mkIn (r_fields r) (DUniform dt) (r_state r) (r_env r)) ranks) in
    Ok (map (fun o => mkOut (foam_min A (o_dtmin o) (nmul A (lit A 2) dt)) (o_state o) (o_env o)) outs).
End Model.
Arguments rankin A H : clear implicits.
Arguments rankout A H : clear implicits.
