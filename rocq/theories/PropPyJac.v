(** Properties C35-C38, C50, C53, C55 and C56: the pyJac chemistry model and its cell solver, and
    C15 and C19 for a case that uses them with seulex_LAPACK.
    Vocabulary: PyJac.v (the model of the code), OdeSolver.v and Seulex.v (the ODE solver),
    ChemistryModel.v ([solve_all]), [composition], [decouples], [decouples64] and [finite] in
    PyJacCases.v, [seulex_reach] in SeulexCases.v, [gauss_lap] in Gauss.v. *)
From Coq Require Import List Arith ZArith QArith Bool Lia.
From Coq Require Import Floats.SpecFloat.
From Verif Require Import Outcome Arith Problem LoadBalancing BalancerSpec BalancerProofs MixtureFraction ChemistryModel
  ChemFacts ChemSim ChemBalance ChemCells ChemStep ChemSafe ChemResults OdeSolver Seulex SeulexSafe
  SeulexRun OdeFacts SeulexEx SeulexCases PyJac PyJacFacts PyJacSpec PyJacCases Gauss QSum F64Facts ChemIeee PropBalancer PropChemistry.
Import ListNotations.
Local Open Scope nat_scope.

(** ** Test data *)

(** Two species; the first is produced from the second, at a rate that vanishes with the
    second; the temperature is constant. *)
Definition ex_mech : mech QR :=
  mkMech (A := QR) 2 (fun _ y i => if i =? 1 then Qred (10 * (1 - nth 1 y 0))%Q else 0%Q)
    (fun _ _ k => if k =? 3 then (-(10))%Q else 0%Q) (fun T i => Qred (T * inject_Z (Z.of_nat i))%Q).

(** The same functions for other arithmetics, numbers as Jacobian. *)
Definition ex_mech_QAD : mech QAD :=
  mkMech (A := QAD) 2 (fun _ y i => if i =? 1 then (10 * (1 - nth 1 y 0))%Q else 0%Q)
    (fun _ _ k => inject_Z (Z.of_nat k)) (fun T i => (T * inject_Z (Z.of_nat i))%Q).

Lemma by_solve {A T} (o : outcome (kcell A * T)) (P : kcell A -> Prop) :
  match o with Ok (x, _) => P x | _ => False end -> exists x h, o = Ok (x, h) /\ P x.
Proof. destruct o as [[x h]| | |]; try contradiction. eauto. Qed.

(** ** C35: the composition handed to the mechanism *)

(** Rates are those of the mechanism at pressure [p], temperature [T] and composition [Y]; the
    pressure has derivative 0. *)
Theorem C35_rates :
  forall (A : Arith) (mc : mech A) ns, NSP mc = ns -> 1 <= ns ->
  forall s t (c : list (num A)) T p,
    length c = ns + 1 -> nth_error c 0 = Some T -> nth_error c ns = Some p ->
    exists Y s', composition ns c Y /\
      derivs (pj_sys mc ns) s t c = Ok (map (dydt_elt mc p (firstn ns (T :: Y))) (seq 0 ns) ++ [lit A 0], s').
Proof. exact @rates_of. Qed.
Print Assumptions C35_rates.

Theorem C35_normalised :
  forall sm gr vg ns (c Y : list Q), 1 <= ns -> length c = ns + 1 ->
    composition (A := QA sm gr vg) ns c Y ->
    (forall i v, i < ns - 1 -> nth_error Y i = Some v -> (0 <= v)%Q) /\ (Qsum Y == 1)%Q.
Proof. exact composition_normalised. Qed.
Print Assumptions C35_normalised.

(** A negative mass fraction is replaced by zero. *)
Example C35_case :
  composition (A := QAD) 3 [1000; -(1 # 2); 1 # 4; 100000]%Q [0; 1 # 4; 3 # 4]%Q.
Proof.
  split; [reflexivity|]. split; [|reflexivity].
  intros [|[|i]] v Hi Ev; [inversion Ev; reflexivity..|simpl in Hi; lia].
Qed.

Example C35_case_rates :
  exists s', derivs (pj_sys ex_mech 2) (fun _ => None) 0%Q [1000; -(1 # 2); 100000]%Q = Ok ([0; 10; 0]%Q, s').
Proof. eexists. reflexivity. Qed.

(** ** C36: the cell solve returns a normalised composition, whatever the ODE solver does *)
Theorem C36_not_negative :
  forall (A : Arith) (H : Type) ns
         (ode : H -> num A -> num A -> list (num A) -> num A -> outcome (list (num A) * num A * H)),
    1 <= ns ->
  forall h (x x' : kcell A) h', nltb A (lit A 0) (lit A 0) = false -> length (k_c x) = ns ->
    ode_solve ns (ns + 1) ode h x = Ok (x', h') ->
    length (k_c x') = ns /\
    forall i v, i < ns - 1 -> nth_error (k_c x') i = Some v -> nltb A v (lit A 0) = false.
Proof. exact @not_negative. Qed.
Print Assumptions C36_not_negative.

Theorem C36_normalised :
  forall sm gr vg (H : Type) ns
         (ode : H -> Q -> Q -> list Q -> Q -> outcome (list Q * Q * H)),
    1 <= ns ->
  forall h (x x' : kcell (QA sm gr vg)) h', length (k_c x) = ns ->
    ode_solve (A := QA sm gr vg) ns (ns + 1) ode h x = Ok (x', h') ->
    length (k_c x') = ns /\ (forall i v, i < ns - 1 -> nth_error (k_c x') i = Some v -> (0 <= v)%Q) /\
    (Qsum (k_c x') == 1)%Q.
Proof. exact @normalised. Qed.
Print Assumptions C36_normalised.

(** An integrator that returns negative mass fractions. *)
Definition ex_ode (h : nat) (a b : Q) (y : list Q) (sub : Q) : outcome (list Q * Q * nat) :=
  Ok (map (fun v => (3 # 4) - v)%Q y, sub, S h).

Example C36_case :
  exists x' h',
    ode_solve (A := QAD) 3 4 ex_ode (fun _ => None, 0) (mkCell (A := QAD) 1 2 [1; 1 # 2; 0] 1 1)%Q = Ok (x', h') /\
    Forall2 Qeq (k_c x') [0; 1 # 4; 3 # 4]%Q.
Proof. do 2 eexists. split; [reflexivity|]. repeat constructor. Qed.

(** ** C37: the last mass fraction can become negative *)

(** Although all rates vanish with it, and the input is a proper composition. *)
Theorem C37_last_nonnegative_refuted :
  exists (mc : mech QR) (x x' : kcell QR) h h',
    (forall p y i, nth 1 y 0%Q = 1%Q -> dydt_elt mc p y i = 0%Q) /\
    (forall v, In v (k_c x) -> 0 < v)%Q /\ (Qsum (k_c x) == 1)%Q /\
    pyJac_kern (A := QR) qrmath gauss_lap mc (1 # 5)%Q (1 # 5)%Q 9 9 2 h x = Ok (x', h') /\
    exists v, nth_error (k_c x') 1 = Some v /\ (v < 0)%Q.
Proof. exact last_negative. Qed.
Print Assumptions C37_last_nonnegative_refuted.

(** ** C38: the pressure is constant during a cell solve *)
Theorem C38_pressure :
  forall sm gr vg (cm : cmath (QA sm gr vg)) (lap : lapack (QA sm gr vg)) (mc : mech (QA sm gr vg))
         (aT rT : Q) fuel maxSteps ns h (x x' : kcell (QA sm gr vg)) h',
    NSP mc = ns -> 1 <= ns -> (0 < rT)%Q -> decouples lap (ns + 1) -> length (k_c x) = ns ->
    pyJac_kern cm lap mc aT rT fuel maxSteps ns h x = Ok (x', h') ->
    (k_p x' == k_p x)%Q.
Proof. exact pressure_cell. Qed.
Print Assumptions C38_pressure.

(** What is asked of LAPACK is true of Gaussian elimination. *)
Theorem C38_elimination :
  forall sm gr vg n, 1 <= n -> decouples (sm := sm) (gr := gr) (vg := vg) gauss_lap n.
Proof. exact gauss_decouples. Qed.
Print Assumptions C38_elimination.

(** In doubles it is the same number after any number of steps, unless the state is no longer
    finite. *)
Theorem C38_pressure_double :
  forall (cm : cmath F64) (lap : lapack F64) (mc : mech F64) (aTs rTs : list spec_float) fuel ns,
    NSP mc = ns -> 1 <= ns ->
    nltb F64 (jacRedo (A := F64) rTs) (nmul F64 (lit F64 2) (jacRedo (A := F64) rTs)) = true ->
    decouples64 lap (ns + 1) ->
  forall m (xs xe : spec_float) (y : list spec_float) (p dx : spec_float) q b,
    length y = ns + 1 -> nth_error y ns = Some p -> isFin p = true ->
    seulex_reach cm lap (pj_sys mc ns) aTs rTs fuel m xs xe y dx q b ->
    (forall v, In v (pt_y b) -> finite v) -> nth_error (pt_y b) ns = Some p.
Proof. exact pressure_double. Qed.
Print Assumptions C38_pressure_double.

Definition ex_heater (A : Arith) : mech A :=
  mkMech 1 (fun _ _ _ => lit A 10) (fun _ _ _ => lit A 0) (fun _ _ => lit A 0).

(** An integration in exact arithmetic. *)
Example C38_case :
  exists x' h',
    pyJac_kern (A := QAD) qmath gauss_lap (ex_heater QAD) (1 # 5)%Q (1 # 5)%Q 4 9 1
      (fun _ => None, newMem (A := QAD) [1 # 10]%Q (fun _ => None)) (mkCell (A := QAD) 100000 1000 [1] 1 1)%Q = Ok (x', h') /\
    (k_T x' == 1010)%Q /\ (k_p x' == 100000)%Q.
Proof.
  apply by_solve. vm_compute. split; reflexivity.
Qed.

(** An integration in doubles, from 0 to 1, with diagonal matrices. *)
Example C38_double_case :
  decouples64 diag_lap 2 /\
  nltb F64 (jacRedo (A := F64) [lit F64 (1 # 8)]) (nmul F64 (lit F64 2) (jacRedo (A := F64) [lit F64 (1 # 8)])) = true /\
  exists x' h',
    pyJac_kern (A := F64) fmath diag_lap (ex_heater F64) (lit F64 (1 # 8)) (lit F64 (1 # 8)) 4 9 1
      (fun _ => None, newMem (A := F64) [lit F64 (1 # 8)] (fun _ => None))
      (mkCell (A := F64) (lit F64 100000) (lit F64 1000) [lit F64 1] (lit F64 1) (lit F64 1)) = Ok (x', h') /\
    nltb F64 (lit F64 1009) (k_T x') = true /\ k_p x' = lit F64 100000.
Proof.
  split; [apply diag_decouples; lia|]. split; [vm_compute; reflexivity|].
  apply by_solve. vm_compute. split; reflexivity.
Qed.

(** ** C50: heat release *)
Theorem C50_heat_release :
  forall sm gr vg (mc : mech (QA sm gr vg)) ns h (RR : list (list Q)) n,
    NSP mc = ns -> construct mc ns true = Ok h ->
    length RR = ns -> (forall row, In row RR -> length row = n) ->
    exists q, Qdot (A := QA sm gr vg) ns true h RR n = Ok q /\ length q = n /\
      forall c, c < n ->
        (nth c q 0 == - Qsumf (fun i => h_elt mc (29815 # 100)%Q i * nth c (nth i RR []) 0) (seq 0 ns))%Q.
Proof. exact heat_exact. Qed.
Print Assumptions C50_heat_release.

(** In any arithmetic: the sum is accumulated species by species. *)
Theorem C50_accumulated :
  forall (A : Arith) (mc : mech A) ns, NSP mc = ns ->
  forall (hs : list (num A)) (RR : list (list (num A))) n,
    length hs = ns -> length RR = ns -> (forall row, In row RR -> length row = n) ->
    Qdot ns true (map Some hs) RR n =
    Ok (map (fun c => fold_left (fun v i => nsub A v (nmul A (nth i hs (zero A)) (nth c (nth i RR []) (zero A))))
                        (seq 0 ns) (zero A)) (seq 0 n)).
Proof. exact @qdot_cells. Qed.
Print Assumptions C50_accumulated.

Theorem C50_chemistry_off :
  forall (A : Arith) ns h (RR : list (list (num A))) n,
    Qdot ns false h RR n = Ok (repeat (lit A 0) n).
Proof. reflexivity. Qed.
Print Assumptions C50_chemistry_off.

Example C50_case :
  exists h q, construct ex_mech_QAD 2 true = Ok h /\
    Qdot (A := QAD) 2 true h [[1; 2; 3]; [-(1); -(2); 4]]%Q 3 = Ok q /\
    Forall2 Qeq q [29815 # 100; 29815 # 50; -(4 * (29815 # 100))]%Q.
Proof. do 2 eexists. split; [reflexivity|]. split; [reflexivity|]. repeat constructor. Qed.

(** ** C53: the rates of the species cancel *)
Theorem C53_rates_cancel :
  forall sm gr vg (H : Type) ns
         (ode : H -> Q -> Q -> list Q -> Q -> outcome (list Q * Q * H)),
    1 <= ns ->
  forall fuel cfg dbg par sortf tms ranks outs,
    g_nSpecie cfg = ns -> g_chem cfg = true -> mapper_ok (g_nSpecie cfg) (g_mapper cfg) -> sort_contract sortf ->
    par = true \/ length ranks <= 1 ->
    solve_all (ode_solve (A := QA sm gr vg) ns (ns + 1) ode) fuel cfg dbg par sortf tms ranks = Ok outs ->
    forall q r o n, nth_error ranks q = Some r -> nth_error outs q = Some o ->
      meshed (g_nSpecie cfg) n r ->
      (forall j Y, j < n -> map (fun y => nth_error y j) (f_Y (r_fields r)) = map Some Y -> (Qsum Y == 1)%Q) ->
      forall i, i < n ->
      exists rates, map (fun row => nth_error row i) (m_RR (o_state o)) = map Some rates /\ (Qsum rates == 0)%Q.
Proof. exact @rates_cancel. Qed.
Print Assumptions C53_rates_cancel.

(** In general they restore the sum 1 within the time step (of the reference cell [j], if the
    cell is mapped). *)
Theorem C53_total_rate :
  forall sm gr vg (H : Type) ns
         (ode : H -> Q -> Q -> list Q -> Q -> outcome (list Q * Q * H)),
    1 <= ns ->
  forall fuel cfg dbg par sortf tms ranks outs,
    g_nSpecie cfg = ns -> g_chem cfg = true -> mapper_ok (g_nSpecie cfg) (g_mapper cfg) -> sort_contract sortf ->
    par = true \/ length ranks <= 1 ->
    solve_all (ode_solve (A := QA sm gr vg) ns (ns + 1) ode) fuel cfg dbg par sortf tms ranks = Ok outs ->
    forall q r o n, nth_error ranks q = Some r -> nth_error outs q = Some o ->
      meshed (g_nSpecie cfg) n r ->
      forall i, i < n ->
      exists j p rates, j < n /\ problem_of (r_fields r) (r_dt r) (r_state r) j p /\
        (j = i \/ mapped (g_mapper cfg) (r_fields r) j i) /\
        map (fun row => nth_error row i) (m_RR (o_state o)) = map Some rates /\
        (Qsum rates == if Qle_bool (p_deltaT p) sm then 0 else (1 - Qsum (p_c p)) * p_rho p / p_deltaT p)%Q.
Proof. exact @total_rate. Qed.
Print Assumptions C53_total_rate.

Definition ex_cfg2 (A : Arith) (act : bool) : config A :=
  mkConfig 2 (lit A 6) true act (mkMapper false (lit A 1) (lit A 1) (mkMix [] [])).

(** Two ranks with two cells and one cell; compositions sum up to 1, in the last cell to 1/2. *)
Definition ex_ranks2 (A : Arith) {H} (h : H) : list (rankin A H) :=
  let l := map (lit A) in
  [ mkIn (mkFields [l [1 # 2; 1 # 4]; l [1 # 2; 3 # 4]] (l [1000; 1200]) (l [100000; 200000]) (l [1; 2])) (DUniform (lit A 1))
         (mkM [l [0; 0]; l [0; 0]] (l [1; 1]) (l [4; 6]) [0; 0]%nat) (h, 0)%nat;
    mkIn (mkFields [l [1 # 4]; l [1 # 4]] (l [1000]) (l [100000]) (l [2])) (DField (l [1]))
         (mkM [l [0]; l [0]] (l [1]) (l [1]) [0%nat]) (h, 0)%nat ]%Q.

Example ex_meshed2 : forall A H (h : H) r, In r (ex_ranks2 A h) -> exists n, meshed 2 n r.
Proof.
  intros A H h r [<-|[<-|[]]]; [exists 2|exists 1];
    (split; [repeat split; auto|repeat split]; intros row [<-|[<-|[]]]; reflexivity).
Qed.

Example C53_case :
  exists outs,
    solve_all (ode_solve (A := QAD) 2 3 ex_ode) 9 (ex_cfg2 QAD true) true true isort (ex_tms QAD) (ex_ranks2 QAD (fun _ => None, 0)) = Ok outs /\
    Forall2 (Forall2 (Forall2 Qeq)) (map (fun o => m_RR (o_state o)) outs)
      [[[-(1 # 4); 1 # 2]; [1 # 4; -(1 # 2)]]; [[1 # 2]; [1 # 2]]]%Q.
Proof. apply by_run. vm_compute. repeat constructor. Qed.

(** ** C55: layout of the Jacobian *)
Theorem C55_jacobian :
  forall (A : Arith) (mc : mech A) ns, NSP mc = ns -> 1 <= ns ->
  forall s t (c : list (num A)) T p,
    length c = ns + 1 -> nth_error c 0 = Some T -> nth_error c ns = Some p ->
    exists Y dcdt J s', composition ns c Y /\
      jac (pj_sys mc ns) s t c = Ok (dcdt, J, s') /\
      dcdt = repeat (lit A 0) (ns + 1) /\ length J = ns + 1 /\
      forall i j, i < ns + 1 -> j < ns + 1 ->
        exists row, nth_error J i = Some row /\ length row = ns + 1 /\
          nth_error row j = Some (if (i <? ns) && (j <? ns) then jacob_elt mc p (firstn ns (T :: Y)) (j * ns + i) else lit A 0).
Proof. exact @jac_of. Qed.
Print Assumptions C55_jacobian.

Example C55_case :
  exists s', jac (pj_sys ex_mech_QAD 2) (fun _ => None) 0%Q [1000; 1 # 2; 100000]%Q =
    Ok ([0; 0; 0], [[0; 2; 0]; [1; 3; 0]; [0; 0; 0]], s')%Q.
Proof. eexists. reflexivity. Qed.

(** ** C56: a mechanism library for another number of species *)

(** It is diagnosed when chemistry is off, or when the library has fewer species. *)
Theorem C56_diagnosed :
  forall (A : Arith) (mc : mech A) ns chem,
    match construct mc ns chem with
    | Ok h => NSP mc = ns /\ length h = ns
    | Fatal => NSP mc <> ns
    | UB => chem = true /\ ns < NSP mc
    | Diverge => False
    end.
Proof. exact @construct_cases. Qed.
Print Assumptions C56_diagnosed.

(** Else the enthalpies are written beyond the end of the array before the check. *)
Theorem C56_overflow_refuted :
  forall (A : Arith) (mc : mech A) ns, ns < NSP mc -> construct mc ns true = UB.
Proof. exact @construct_overflow. Qed.
Print Assumptions C56_overflow_refuted.

Example C56_case :
  construct ex_mech_QAD 3 true = Fatal /\ construct ex_mech_QAD 1 false = Fatal /\
  construct ex_mech_QAD 1 true = UB /\ exists h, construct ex_mech_QAD 2 true = Ok h.
Proof. repeat split. eexists. reflexivity. Qed.

(** ** C15 and C19 for the whole stack: pyJac, ode_pyJac, seulex_LAPACK *)

(** [HJ]: twice the threshold for the Jacobian is above it (true of positive tolerances up to
    overflow); [HO]: the target order can be computed from the tolerances. *)
Theorem C15_pyJac_same_results :
  forall (A : Arith) (cm : cmath A) (lap : lapack A) (mc : mech A) aT rT fuel maxSteps cfg,
    NSP mc = g_nSpecie cfg -> 1 <= g_nSpecie cfg ->
    nltb A (jacRedo [rT]) (nmul A (lit A 2) (jacRedo [rT])) = true -> order_defined cm aT rT ->
  forall fuel' dbg b1 b2 par1 par2 sortf1 sortf2 tms1 tms2 ranks1 ranks2 outs1 outs2,
    Forall2 same_inputs ranks1 ranks2 ->
    sort_contract sortf1 -> sort_contract sortf2 ->
    par1 = true \/ length ranks1 <= 1 -> par2 = true \/ length ranks2 <= 1 ->
    solve_all (pyJac_kern cm lap mc aT rT fuel maxSteps (g_nSpecie cfg)) fuel' (with_active cfg b1) dbg par1 sortf1 tms1 ranks1 = Ok outs1 ->
    solve_all (pyJac_kern cm lap mc aT rT fuel maxSteps (g_nSpecie cfg)) fuel' (with_active cfg b2) dbg par2 sortf2 tms2 ranks2 = Ok outs2 ->
    Forall2 same_results outs1 outs2.
Proof. exact @stack_same. Qed.
Print Assumptions C15_pyJac_same_results.

Theorem C19_pyJac_no_undefined_behaviour :
  forall (A : Arith) (cm : cmath A) (lap : lapack A) (mc : mech A) aT rT fuel maxSteps cfg,
    NSP mc = g_nSpecie cfg -> 1 <= g_nSpecie cfg ->
    nltb A (jacRedo [rT]) (nmul A (lit A 2) (jacRedo [rT])) = true -> order_defined cm aT rT ->
  forall fuel' dbg par sortf tms ranks,
    mapper_ok (g_nSpecie cfg) (g_mapper cfg) ->
    (forall r, In r ranks -> exists n, meshed (g_nSpecie cfg) n r) ->
    sort_contract sortf -> par = true \/ length ranks <= 1 ->
    (g_chem cfg = true -> g_active cfg = true -> forall got,
       phase_get (pyJac_kern cm lap mc aT rT fuel maxSteps (g_nSpecie cfg)) fuel' cfg dbg tms ranks = Ok got ->
       updateState dbg sortf (map (fun '(ps, _, _) => ps) got) <> UB) ->
    solve_all (pyJac_kern cm lap mc aT rT fuel maxSteps (g_nSpecie cfg)) fuel' cfg dbg par sortf tms ranks <> UB.
Proof. exact @stack_safe. Qed.
Print Assumptions C19_pyJac_no_undefined_behaviour.

(** Balanced and unbalanced call with the stack; rank 1 receives a cell of rank 0. *)
Example C15_pyJac_case :
  let start := (fun _ : nat => @None Q, newMem (A := QR) [1 # 5]%Q (fun _ : nat => @None Q)) in
  let kern := pyJac_kern (A := QR) qrmath gauss_lap ex_mech (1 # 5)%Q (1 # 5)%Q 9 9 2 in
  nltb QR (jacRedo (A := QR) [1 # 5]%Q) (nmul QR (lit QR 2) (jacRedo (A := QR) [1 # 5]%Q)) = true /\
  order_defined qrmath (1 # 5)%Q (1 # 5)%Q /\
  exists on off,
    solve_all kern 9 (ex_cfg2 QR true) true true isort (ex_tms QR) (ex_ranks2 QR start) = Ok on /\
    solve_all kern 9 (ex_cfg2 QR false) true true isort (ex_tms QR) (ex_ranks2 QR start) = Ok off /\
    map (fun o => snd (o_env o)) on = [1; 2] /\ map (fun o => snd (o_env o)) off = [2; 1] /\
    map (fun o => m_RR (o_state o)) on = map (fun o => m_RR (o_state o)) off /\
    match on with o :: _ => match m_RR (o_state o) with (v :: _) :: _ => (0 < v)%Q | _ => False end | _ => False end.
Proof.
  split; [vm_compute; reflexivity|]. split; [eexists; vm_compute; reflexivity|].
  apply by_runs. vm_compute. repeat split.
Qed.
