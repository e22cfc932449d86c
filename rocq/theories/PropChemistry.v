(** Properties C15-C17, C19-C30 and C52: the chemistry model.
    Vocabulary: ChemistryModel.v (the model of the code; [solve_all] is a call of solve() by
    all ranks), the heads of ChemSim.v ([memoryless], [same_inputs], [same_results],
    [with_active]), ChemCells.v ([shapeM], [shapeF], [mapper_ok], [cell_is],
    [problem_of]), ChemStep.v ([calls], [integrated], [candidate], [near], [reference],
    [meshed]), ChemSafe.v ([sane_solver], [whole_step]) and ChemResults.v ([mapped],
    [holds]), and [run] in ChemTransparent.v. *)
From Coq Require Import List Arith ZArith QArith Bool Lia Permutation.
From Verif Require Import Outcome Arith Problem LoadBalancing BalancerSpec PlanFacts
  BalancerProofs Streams StreamFacts Comm CommFacts BalanceFacts MixtureFraction ChemistryModel
  ChemFacts ChemSim ChemBalance WorkFacts ChemTransparent ChemCells ChemStep ChemSafe ChemResults
  F64Facts ChemIeee PropBalancer.
Import ListNotations.
Local Open Scope nat_scope.

(** ** Test data *)

(** A cell solver that halves the mass fractions, needs the whole step, proposes the
    temperature as chemical time step, and counts its calls. *)
Definition ex_kern (A : Arith) (h : nat) (x : kcell A) : outcome (kcell A * nat) :=
  Ok (mkCell (k_p x) (k_T x) (map (fun y => nmul A (lit A (1 # 2)) y) (k_c x)) (k_dt x) (k_T x), S h).

(** The same, but the result depends on the number of earlier calls. *)
Definition ex_kern_memory (A : Arith) (h : nat) (x : kcell A) : outcome (kcell A * nat) :=
  Ok (mkCell (k_p x) (k_T x) (map (fun y => nmul A (ofnat A h) y) (k_c x)) (k_dt x) (k_T x), S h).

(** One species; mixture fraction = mass fraction; tolerances 1/2 and 2. *)
Definition ex_mapper (A : Arith) (act : bool) : mapper A :=
  mkMapper act (lit A (1 # 2)) (lit A 2) (mkMix [one A] [zero A; one A]).

Definition ex_cfg (A : Arith) (chem act map_on : bool) : config A :=
  mkConfig 1 (lit A 6) chem act (ex_mapper A map_on).

(** Rank 0: cells 0-2 rich; cell 3 is the reference, 4 is mapped, 5 is too hot.
    Rank 1: one cell. *)
Definition ex_ranks (A : Arith) : list (rankin A nat) :=
  let l := map (lit A) in
  [ mkIn (mkFields [l [1; 1; 1; 1 # 4; 1 # 8; 1 # 4]] (l [5; 4; 7; 1; 2; 9]) (l [1; 1; 1; 1; 1; 1])
            (l [2; 2; 2; 2; 2; 2])) (DField (l [1; 1; 1; 1; 1; 1]))
         (mkM [l [0; 0; 0; 0; 0; 0]] (l [8; 8; 8; 8; 8; 8]) (l [4; 4; 4; 4; 4; 4]) (repeat 0 6)%nat)
         (0, 0)%nat;
    mkIn (mkFields [l [1]] (l [3]) (l [1]) (l [2])) (DField (l [1]))
         (mkM [l [0]] (l [8]) (l [1]) [0%nat]) (0, 0)%nat ]%Q.

Definition ex_tms (A : Arith) (q k : nat) : num A := ofnat A (q + k + 1).

(** To show what a run gives, compute what is claimed of it. *)
Lemma by_run {T} (o : outcome T) (P : T -> Prop) :
  match o with Ok x => P x | _ => False end -> exists x, o = Ok x /\ P x.
Proof. destruct o; try contradiction. eauto. Qed.

Lemma by_runs {T U} (o1 : outcome T) (o2 : outcome U) (P : T -> U -> Prop) :
  match o1, o2 with Ok x, Ok y => P x y | _, _ => False end ->
  exists x y, o1 = Ok x /\ o2 = Ok y /\ P x y.
Proof. destruct o1, o2; try contradiction. eauto 6. Qed.

Lemma by_run2 {T} (o : outcome (list T)) (P : T -> T -> Prop) :
  match o with Ok [x; y] => P x y | _ => False end -> exists x y, o = Ok [x; y] /\ P x y.
Proof. destruct o as [[|x [|y [|z l]]]| | |]; try contradiction. eauto. Qed.

Lemma by_run3 {T U V} (o : outcome (T * U * V)) (P : T -> U -> V -> Prop) :
  match o with Ok (x, y, z) => P x y z | _ => False end ->
  exists x y z, o = Ok (x, y, z) /\ P x y z.
Proof. destruct o as [[[x y] z]| | |]; try contradiction. eauto. Qed.

Example ex_memoryless : forall A, memoryless (ex_kern A).
Proof. intros A h1 h2 x. reflexivity. Qed.

Example ex_whole : forall A n, whole_step (ex_kern A) n.
Proof. intros A n h x L. do 2 eexists. split; [reflexivity|]. simpl. rewrite map_length. auto. Qed.

Example ex_meshed : forall A r, In r (ex_ranks A) -> exists n, meshed 1 n r.
Proof.
  intros A r [<-|[<-|[]]]; [exists 6|exists 1];
    (split; [repeat split; auto|repeat split]; intros row [<-|[]]; reflexivity).
Qed.

(** ** C15: load balancing is transparent *)
Theorem C15_same_results :
  forall (A : Arith) (H : Type) (kern : H -> kcell A -> outcome (kcell A * H)) fuel cfg dbg
         b1 b2 par1 par2 sortf1 sortf2 tms1 tms2 ranks1 ranks2 outs1 outs2,
    memoryless kern -> Forall2 same_inputs ranks1 ranks2 ->
    sort_contract sortf1 -> sort_contract sortf2 ->
    par1 = true \/ length ranks1 <= 1 -> par2 = true \/ length ranks2 <= 1 ->
    solve_all kern fuel (with_active cfg b1) dbg par1 sortf1 tms1 ranks1 = Ok outs1 ->
    solve_all kern fuel (with_active cfg b2) dbg par2 sortf2 tms2 ranks2 = Ok outs2 ->
    Forall2 same_results outs1 outs2.
Proof. exact @same_lemma. Qed.
Print Assumptions C15_same_results.

(** If the unbalanced call returns and planning succeeds, the balanced call returns with
    the same results. *)
Theorem C15_balanced_returns :
  forall (A : Arith) (H : Type) (kern : H -> kcell A -> outcome (kcell A * H)) fuel cfg dbg
         b1 b2 par1 par2 sortf1 sortf2 tms1 tms2 ranks1 ranks2 outs1,
    memoryless kern -> Forall2 same_inputs ranks1 ranks2 ->
    sort_contract sortf1 -> sort_contract sortf2 ->
    par1 = true \/ length ranks1 <= 1 -> par2 = true \/ length ranks2 <= 1 ->
    (forall probs, length probs = length ranks2 -> exists sts, updateState dbg sortf2 probs = Ok sts) ->
    solve_all kern fuel (with_active cfg b1) dbg par1 sortf1 tms1 ranks1 = Ok outs1 ->
    exists outs2,
      solve_all kern fuel (with_active cfg b2) dbg par2 sortf2 tms2 ranks2 = Ok outs2 /\
      Forall2 same_results outs1 outs2.
Proof. exact @returns_lemma. Qed.
Print Assumptions C15_balanced_returns.

(** In exact arithmetic planning always succeeds. *)
Theorem C15_exact :
  forall sm gr vg (H : Type) (kern : H -> kcell (QA sm gr vg) -> outcome (kcell (QA sm gr vg) * H))
         fuel cfg dbg b1 b2 par sortf tms1 tms2 ranks outs1,
    memoryless kern -> sort_contract sortf -> par = true \/ length ranks <= 1 ->
    solve_all kern fuel (with_active cfg b1) dbg par sortf tms1 ranks = Ok outs1 ->
    exists outs2,
      solve_all kern fuel (with_active cfg b2) dbg par sortf tms2 ranks = Ok outs2 /\
      Forall2 same_results outs1 outs2.
Proof. exact exact_lemma. Qed.
Print Assumptions C15_exact.

(** In IEEE doubles (release build) it succeeds when the stored times are not negative. *)
Theorem C15_ieee :
  forall (H : Type) (kern : H -> kcell F64 -> outcome (kcell F64 * H)) fuel cfg,
    mapper_ok (g_nSpecie cfg) (g_mapper cfg) ->
  forall b1 b2 par sortf1 sortf2 tms1 tms2 (ranks : list (rankin F64 H)) outs1,
    memoryless kern ->
    (forall r, In r ranks -> (exists n, meshed (g_nSpecie cfg) n r) /\
       forall x, In x (m_cpu (r_state r)) -> f_nonneg x = true) ->
    sort_contract sortf1 -> sort_contract sortf2 -> par = true \/ length ranks <= 1 ->
    solve_all kern fuel (with_active cfg b1) false par sortf1 tms1 ranks = Ok outs1 ->
    exists outs2,
      solve_all kern fuel (with_active cfg b2) false par sortf2 tms2 ranks = Ok outs2 /\
      Forall2 same_results outs1 outs2.
Proof. exact @ieee_transparent. Qed.
Print Assumptions C15_ieee.

Example C15_ieee_case :
  (forall r, In r (ex_ranks F64) -> (exists n, meshed 1 n r) /\
     forall x : num F64, In x (m_cpu (r_state r)) -> f_nonneg x = true) /\
  exists off,
    solve_all (ex_kern F64) 9 (ex_cfg F64 true false true) false true isort (ex_tms F64) (ex_ranks F64) = Ok off.
Proof.
  assert (HM : forall r, In r (ex_ranks F64) -> (exists n, meshed 1 n r) /\
     forall x : num F64, In x (m_cpu (r_state r)) -> f_nonneg x = true).
  { intros r Hr. split; [apply (ex_meshed F64); auto|].
    assert (E : forallb (fun r : rankin F64 nat => forallb f_nonneg (m_cpu (r_state r))) (ex_ranks F64) = true)
      by (vm_compute; reflexivity).
    rewrite forallb_forall in E. specialize (E r Hr). rewrite forallb_forall in E. exact E. }
  split; [exact HM|].
  apply ieee_returns; auto.
  - intros _. simpl. auto.
  - apply (sorting_exists F64).
  - apply ex_whole.
  - lia.
Qed.

(** Rank 0 sends problems to rank 1 (the solvers' call counts differ from the unbalanced
    run), the results are the same. *)
Example C15_case :
  exists on off,
    solve_all (ex_kern QAD) 9 (ex_cfg QAD true true true) true true isort (ex_tms QAD) (ex_ranks QAD) = Ok on /\
    solve_all (ex_kern QAD) 9 (ex_cfg QAD true false true) true true isort (ex_tms QAD) (ex_ranks QAD) = Ok off /\
    map (fun o => fst (o_env o)) on = [4; 2] /\ map (fun o => fst (o_env o)) off = [5; 1] /\
    map (fun o => m_ref (o_state o)) on = [[2; 2; 2; 0; 1; 2]; [2]] /\
    map (fun o => m_RR (o_state o)) on = map (fun o => m_RR (o_state o)) off.
Proof.
  apply by_runs. vm_compute. repeat split.
Qed.

(** [memoryless] is needed. *)
Example C15_memory_matters :
  exists on off,
    solve_all (ex_kern_memory QAD) 9 (ex_cfg QAD true true true) true true isort (ex_tms QAD) (ex_ranks QAD) = Ok on /\
    solve_all (ex_kern_memory QAD) 9 (ex_cfg QAD true false true) true true isort (ex_tms QAD) (ex_ranks QAD) = Ok off /\
    map (fun o => m_RR (o_state o)) on <> map (fun o => m_RR (o_state o)) off.
Proof. apply by_runs. vm_compute. discriminate. Qed.

(** ** C16: timing never influences the physics, over any number of calls *)

(** [run] alternates calls of solve() with an arbitrary flow solver [flow], which sees the
    physical results only. *)
Theorem C16_runs_agree :
  forall (A : Arith) (H : Type) (kern : H -> kcell A -> outcome (kcell A * H)) fuel (X : Type)
         (flow : X -> list phys -> X * list (fields A * deltaT A)) cfg dbg par
         setups1 setups2 x inp sts1 sts2 h1 h2,
    memoryless kern -> length setups1 = length setups2 ->
    (forall s, In s setups1 \/ In s setups2 -> sort_contract (su_sort s)) ->
    par = true \/ length sts1 <= 1 ->
    Forall2 (fun a b => m_RR (fst a) = m_RR (fst b) /\ m_dtc (fst a) = m_dtc (fst b) /\
               m_ref (fst a) = m_ref (fst b) /\ length (m_cpu (fst a)) = length (m_cpu (fst b)))
      sts1 sts2 ->
    run kern fuel X flow cfg dbg par setups1 x inp sts1 = Ok h1 ->
    run kern fuel X flow cfg dbg par setups2 x inp sts2 = Ok h2 ->
    h1 = h2.
Proof. exact @runs_lemma. Qed.
Print Assumptions C16_runs_agree.

(** In exact arithmetic one run returning is enough. *)
Theorem C16_exact :
  forall sm gr vg (H : Type) (kern : H -> kcell (QA sm gr vg) -> outcome (kcell (QA sm gr vg) * H))
         fuel (X : Type) (flow : X -> list phys -> X * list (fields (QA sm gr vg) * deltaT (QA sm gr vg)))
         cfg dbg par setups1 setups2 x inp sts1 sts2 h,
    memoryless kern -> length setups1 = length setups2 ->
    (forall s, In s setups1 \/ In s setups2 -> sort_contract (su_sort s)) ->
    par = true \/ length sts1 <= 1 ->
    Forall2 (fun a b => m_RR (fst a) = m_RR (fst b) /\ m_dtc (fst a) = m_dtc (fst b) /\
               m_ref (fst a) = m_ref (fst b) /\ length (m_cpu (fst a)) = length (m_cpu (fst b)))
      sts1 sts2 ->
    run kern fuel X flow cfg dbg par setups1 x inp sts1 = Ok h ->
    run kern fuel X flow cfg dbg par setups2 x inp sts2 = Ok h.
Proof. exact runs_exact. Qed.
Print Assumptions C16_exact.

(** IEEE doubles, release build: the same, if the timers are not negative. *)
Theorem C16_ieee :
  forall (H : Type) (kern : H -> kcell F64 -> outcome (kcell F64 * H)) fuel (X : Type)
         (flow : X -> list phys -> X * list (fields F64 * deltaT F64)) cfg par (ns : list nat),
    mapper_ok (g_nSpecie cfg) (g_mapper cfg) -> memoryless kern ->
    (forall x o, Forall2 (fun n '(F, d) => shapeF (g_nSpecie cfg) n F d) ns (snd (flow x o))) ->
  forall (setups1 setups2 : list (@setup F64)) x inp sts1 sts2 h,
    length setups1 = length setups2 ->
    (forall s, In s setups1 \/ In s setups2 -> sort_contract (su_sort s)) ->
    (forall s, In s setups2 -> forall q k, f_nonneg (su_tms s q k) = true) ->
    par = true \/ length sts1 <= 1 ->
    Forall2 (fun a b => m_RR (fst a) = m_RR (fst b) /\ m_dtc (fst a) = m_dtc (fst b) /\
               m_ref (fst a) = m_ref (fst b) /\ length (m_cpu (fst a)) = length (m_cpu (fst b)))
      sts1 sts2 ->
    Forall2 (fun n '(F, d) => shapeF (g_nSpecie cfg) n F d) ns inp ->
    Forall2 (fun n (st : mstate F64 * (H * nat)) => shapeM (g_nSpecie cfg) n (fst st) /\
               forall y, In y (m_cpu (fst st)) -> f_nonneg y = true) ns sts2 ->
    run kern fuel X flow cfg false par setups1 x inp sts1 = Ok h ->
    run kern fuel X flow cfg false par setups2 x inp sts2 = Ok h.
Proof. exact @ieee_runs. Qed.
Print Assumptions C16_ieee.

(** Two calls; the flow solver adds the rates to the mass fractions. *)
Definition ex_flow (A : Arith) (x : list (fields A * deltaT A)) (o : list (@phys A))
  : list (fields A * deltaT A) * list (fields A * deltaT A) :=
  let nx := map (fun '((F, d), (dt, RR, dtc, ref)) =>
              (mkFields (map (fun '(ys, rs) => map (fun '(y, r) => nadd A y r) (combine ys rs))
                           (combine (f_Y F) RR)) dtc (f_p F) (f_rho F), DUniform dt)) (combine x o) in
  (nx, nx).

Example C16_case :
  let inp := map (fun r => (r_fields r, r_dt r)) (ex_ranks QAD) in
  let sts := map (fun r => (r_state r, r_env r)) (ex_ranks QAD) in
  let s1 := [mkSetup true isort (ex_tms QAD); mkSetup true isort (ex_tms QAD)] in
  let s2 := [mkSetup false isort (fun _ _ => one QAD); mkSetup true isort (fun q _ => ofnat QAD q)] in
  exists h,
    run (ex_kern QAD) 9 _ (ex_flow QAD) (ex_cfg QAD true true true) true true s1 inp inp sts = Ok h /\
    run (ex_kern QAD) 9 _ (ex_flow QAD) (ex_cfg QAD true true true) true true s2 inp inp sts = Ok h /\
    length h = 2.
Proof.
  eexists. split; [vm_compute; reflexivity|]. split; [vm_compute; reflexivity|]. reflexivity.
Qed.

(** ** C17: every problem is solved exactly once *)

(** The exchange distributes exactly the given values over the ranks. *)
Theorem C17_work_distribution :
  forall (A : Arith) (T K : Type) (enc : list T -> list K) dec par dbg sortf
         (probs : list (list (problem A))) sts (values : list (list T)),
    (forall x rest, dec (enc x ++ rest) = Some (x, rest)) ->
    sort_contract sortf -> updateState dbg sortf probs = Ok sts ->
    par = true \/ length probs <= 1 ->
    map (@length _) values = map (@length _) probs ->
    exists guests owns,
      balance enc dec par sts values = Ok guests /\
      mapM (fun '(st, vs) => getRemaining st vs) (combine sts values) = Ok owns /\
      length guests = length probs /\ length owns = length probs /\
      Permutation (concat (map (fun '(own, gs) => own ++ concat gs) (combine owns guests)))
        (concat values).
Proof. exact @work_lemma. Qed.
Print Assumptions C17_work_distribution.

(** The ranks' solvers run over lists [work] that together are all problems: each rank's
    solver memory and timer count [e'] are those after solving exactly [work] of the
    rank. *)
Theorem C17_solved_once :
  forall (A : Arith) (H : Type) (kern : H -> kcell A -> outcome (kcell A * H)) fuel cfg dbg par
         sortf tms (got : list (list (problem A) * mstate A * (H * nat))) sv,
    sort_contract sortf -> par = true \/ length got <= 1 ->
    solve_balanced kern fuel cfg dbg par sortf tms got = Ok sv ->
    exists work : list (list (problem A)),
      Permutation (concat work) (concat (map (fun '(ps, _, _) => ps) got)) /\
      length work = length got /\ length sv = length got /\
      forall q w ps m e inc e', nth_error work q = Some w -> nth_error got q = Some (ps, m, e) ->
        nth_error sv q = Some (inc, e') ->
        exists ss, solveList kern fuel cfg (tms q) e w = Ok (ss, e').
Proof. exact @balanced_work. Qed.
Print Assumptions C17_solved_once.

(** The plan of [ex_probs] with problems numbered 0 to 10. *)
Example C17_case :
  let enc (l : list nat) := [l] in
  let dec (l : list (list nat)) := match l with [] => None | x :: r => Some (x, r) end in
  let values := [[0; 1; 2; 3; 4]; [5]; [6; 7]; [8; 9; 10]] in
  exists sts guests owns,
    updateState true isort (ex_probs QAD) = Ok sts /\
    balance enc dec true sts values = Ok guests /\
    mapM (fun '(st, vs) => getRemaining st vs) (combine sts values) = Ok owns /\
    map (fun '(own, gs) => own ++ concat gs) (combine owns guests)
    = [[3; 4]; [5; 0; 1; 2]; [6; 7; 8]; [9; 10]].
Proof.
  do 3 eexists. split; [vm_compute; reflexivity|]. split; [vm_compute; reflexivity|].
  split; vm_compute; reflexivity.
Qed.

(** ** C19: nothing indeterminate is read, no other undefined behaviour *)
Theorem C19_no_undefined_behaviour :
  forall (A : Arith) (H : Type) (kern : H -> kcell A -> outcome (kcell A * H)) fuel cfg dbg par
         sortf tms ranks,
    mapper_ok (g_nSpecie cfg) (g_mapper cfg) ->
    (forall r, In r ranks -> exists n, meshed (g_nSpecie cfg) n r) ->
    sort_contract sortf -> par = true \/ length ranks <= 1 -> sane_solver kern (g_nSpecie cfg) ->
    (g_chem cfg = true -> g_active cfg = true -> forall got,
       phase_get kern fuel cfg dbg tms ranks = Ok got ->
       updateState dbg sortf (map (fun '(ps, _, _) => ps) got) <> UB) ->
    solve_all kern fuel cfg dbg par sortf tms ranks <> UB.
Proof. exact @solve_all_sane. Qed.
Print Assumptions C19_no_undefined_behaviour.

(** A mapper that was constructed fits the species it was constructed for. *)
Theorem C19_constructed_mapper :
  forall (A : Arith) act tol dT sp (m : mapper A),
    newMapper act tol dT sp = Ok m -> mapper_ok (length sp) m.
Proof. exact @mapper_ok_new. Qed.
Print Assumptions C19_constructed_mapper.

(** With a cell solver that always returns with the step it was asked for, the call
    returns (exact arithmetic). *)
Theorem C19_call_returns :
  forall sm gr vg (H : Type) (kern : H -> kcell (QA sm gr vg) -> outcome (kcell (QA sm gr vg) * H))
         fuel cfg dbg par sortf tms ranks,
    (0 <= sm)%Q -> mapper_ok (g_nSpecie cfg) (g_mapper cfg) ->
    (forall r, In r ranks -> exists n, meshed (g_nSpecie cfg) n r) ->
    sort_contract sortf -> par = true \/ length ranks <= 1 ->
    whole_step kern (g_nSpecie cfg) -> 1 <= fuel ->
    exists outs, solve_all kern fuel cfg dbg par sortf tms ranks = Ok outs.
Proof. exact call_returns. Qed.
Print Assumptions C19_call_returns.

(** The same in IEEE doubles (release build), where the stored times are not negative; and
    the call leaves such times if the timers give such. *)
Theorem C19_ieee_call_returns :
  forall (H : Type) (kern : H -> kcell F64 -> outcome (kcell F64 * H)) fuel cfg,
    mapper_ok (g_nSpecie cfg) (g_mapper cfg) ->
  forall par sortf tms (ranks : list (rankin F64 H)),
    (forall r, In r ranks -> (exists n, meshed (g_nSpecie cfg) n r) /\
       forall x, In x (m_cpu (r_state r)) -> f_nonneg x = true) ->
    sort_contract sortf -> par = true \/ length ranks <= 1 ->
    whole_step kern (g_nSpecie cfg) -> 1 <= fuel ->
    exists outs, solve_all kern fuel cfg false par sortf tms ranks = Ok outs.
Proof. exact @ieee_returns. Qed.
Print Assumptions C19_ieee_call_returns.

Theorem C19_ieee_no_undefined_behaviour :
  forall (H : Type) (kern : H -> kcell F64 -> outcome (kcell F64 * H)) fuel cfg,
    mapper_ok (g_nSpecie cfg) (g_mapper cfg) ->
  forall par sortf tms (ranks : list (rankin F64 H)),
    (forall r, In r ranks -> (exists n, meshed (g_nSpecie cfg) n r) /\
       forall x, In x (m_cpu (r_state r)) -> f_nonneg x = true) ->
    sort_contract sortf -> par = true \/ length ranks <= 1 -> sane_solver kern (g_nSpecie cfg) ->
    solve_all kern fuel cfg false par sortf tms ranks <> UB.
Proof. exact @ieee_sane. Qed.
Print Assumptions C19_ieee_no_undefined_behaviour.

Theorem C19_times_stay_nonnegative :
  forall (H : Type) (kern : H -> kcell F64 -> outcome (kcell F64 * H)) fuel cfg,
    mapper_ok (g_nSpecie cfg) (g_mapper cfg) ->
  forall dbg par sortf (tms : nat -> nat -> num F64) ranks outs q r (o : rankout F64 H) n,
    g_chem cfg = true -> sort_contract sortf -> par = true \/ length ranks <= 1 ->
    solve_all kern fuel cfg dbg par sortf tms ranks = Ok outs ->
    nth_error ranks q = Some r -> nth_error outs q = Some o -> meshed (g_nSpecie cfg) n r ->
    (forall a k, f_nonneg (tms a k) = true) ->
    forall x, In x (m_cpu (o_state o)) -> f_nonneg x = true.
Proof. exact @timed_next. Qed.
Print Assumptions C19_times_stay_nonnegative.

(** Reading a [ChemistryProblem] as constructed is undefined behaviour. *)
Example C19_case_unset : u_read (u_sized (A := QAD) 1) = UB.
Proof. reflexivity. Qed.

Example C19_case : sane_solver (ex_kern F64) 1.
Proof. intros h x L. simpl. rewrite map_length. exact L. Qed.

(** ** C20: which cells are returned by getProblems; the reference map *)
Theorem C20_cells :
  forall (A : Arith) (H : Type) (kern : H -> kcell A -> outcome (kcell A * H)) fuel cfg n F d m,
    shapeF (g_nSpecie cfg) n F d -> shapeM (g_nSpecie cfg) n m ->
    mapper_ok (g_nSpecie cfg) (g_mapper cfg) ->
    forall dbg tm e ps m' e',
    getProblems kern fuel cfg dbg tm e F d m = Ok (ps, m', e') ->
    NoDup (map p_cellid ps) /\
    (forall p, In p ps -> p_cellid p < n /\ problem_of F d m (p_cellid p) p) /\
    forall i, i < n ->
      (In i (map p_cellid ps) <-> forall i0, ~ mapped (g_mapper cfg) F i0 i) /\
      (nth_error (m_ref m') i = Some 2 <-> In i (map p_cellid ps)) /\
      (nth_error (m_ref m') i = Some 0 <-> mapped (g_mapper cfg) F i i) /\
      (nth_error (m_ref m') i = Some 1 <-> exists i0, i0 <> i /\ mapped (g_mapper cfg) F i0 i).
Proof. exact @get_lemma. Qed.
Print Assumptions C20_cells.

Example C20_case :
  exists ps m' e', 
    getProblems (ex_kern QAD) 9 (ex_cfg QAD true true true) true (ex_tms QAD 0) (0, 0)
      (r_fields (hd (mkIn (mkFields [] [] [] []) (DField []) (mkM [] [] [] []) (0, 0)) (ex_ranks QAD)))
      (DUniform (one QAD))
      (r_state (hd (mkIn (mkFields [] [] [] []) (DField []) (mkM [] [] [] []) (0, 0)) (ex_ranks QAD)))
    = Ok (ps, m', e') /\ map p_cellid ps = [0; 1; 2; 5] /\ m_ref m' = [2; 2; 2; 0; 1; 2].
Proof. apply by_run3. vm_compute. repeat split. Qed.

(** ** C21: mapped cells hold the reference solution, and only cells that may
    (concrete case: cells 3 and 4 in [C22_case]) *)
Theorem C21_mapping_safe :
  forall (A : Arith) (H : Type) (kern : H -> kcell A -> outcome (kcell A * H)) fuel cfg dbg par
         sortf tms ranks outs,
    g_chem cfg = true -> mapper_ok (g_nSpecie cfg) (g_mapper cfg) -> sort_contract sortf ->
    par = true \/ length ranks <= 1 ->
    solve_all kern fuel cfg dbg par sortf tms ranks = Ok outs ->
    forall q r o n, nth_error ranks q = Some r -> nth_error outs q = Some o ->
      meshed (g_nSpecie cfg) n r ->
      forall i0, i0 < n -> reference (g_mapper cfg) (r_fields r) i0 ->
      exists p s, problem_of (r_fields r) (r_dt r) (r_state r) i0 p /\
        integrated kern cfg tms p s /\
        forall i, i < n -> mapped (g_mapper cfg) (r_fields r) i0 i ->
          holds (o_state o) i s (if i =? i0 then 0 else 1).
Proof. exact @mapped_cells. Qed.
Print Assumptions C21_mapping_safe.

(** The labels after a call tell which cells were mapped. *)
Theorem C21_labels :
  forall (A : Arith) (H : Type) (kern : H -> kcell A -> outcome (kcell A * H)) fuel cfg dbg par
         sortf tms ranks outs,
    g_chem cfg = true -> mapper_ok (g_nSpecie cfg) (g_mapper cfg) -> sort_contract sortf ->
    par = true \/ length ranks <= 1 ->
    solve_all kern fuel cfg dbg par sortf tms ranks = Ok outs ->
    forall q r o n, nth_error ranks q = Some r -> nth_error outs q = Some o ->
      meshed (g_nSpecie cfg) n r ->
      forall i, i < n ->
      (nth_error (m_ref (o_state o)) i = Some 2 <->
         forall i0, ~ mapped (g_mapper cfg) (r_fields r) i0 i) /\
      (nth_error (m_ref (o_state o)) i = Some 0 <-> mapped (g_mapper cfg) (r_fields r) i i) /\
      (nth_error (m_ref (o_state o)) i = Some 1 <->
         exists i0, i0 <> i /\ mapped (g_mapper cfg) (r_fields r) i0 i).
Proof. exact @labels. Qed.
Print Assumptions C21_labels.

(** ** C22: every cell is refreshed in every call *)
Theorem C22_every_cell :
  forall (A : Arith) (H : Type) (kern : H -> kcell A -> outcome (kcell A * H)) fuel cfg dbg par
         sortf tms ranks outs,
    g_chem cfg = true -> mapper_ok (g_nSpecie cfg) (g_mapper cfg) -> sort_contract sortf ->
    par = true \/ length ranks <= 1 ->
    solve_all kern fuel cfg dbg par sortf tms ranks = Ok outs ->
    forall q r o n, nth_error ranks q = Some r -> nth_error outs q = Some o ->
      meshed (g_nSpecie cfg) n r ->
      forall i, i < n ->
      exists j p s k, j < n /\ problem_of (r_fields r) (r_dt r) (r_state r) j p /\
        integrated kern cfg tms p s /\ holds (o_state o) i s k /\
        ((k = 2 /\ j = i /\ forall i0, ~ mapped (g_mapper cfg) (r_fields r) i0 i) \/
         (k = 0 /\ j = i /\ mapped (g_mapper cfg) (r_fields r) i i) \/
         (k = 1 /\ j <> i /\ mapped (g_mapper cfg) (r_fields r) j i)).
Proof. exact @every_cell. Qed.
Print Assumptions C22_every_cell.

(** The call leaves the fields on their meshes, so the next call finds them in shape. *)
Theorem C22_shapes_kept :
  forall (A : Arith) (H : Type) (kern : H -> kcell A -> outcome (kcell A * H)) fuel cfg dbg par
         sortf tms ranks outs,
    g_chem cfg = true -> mapper_ok (g_nSpecie cfg) (g_mapper cfg) -> sort_contract sortf ->
    par = true \/ length ranks <= 1 ->
    solve_all kern fuel cfg dbg par sortf tms ranks = Ok outs ->
    forall q r o n, nth_error ranks q = Some r -> nth_error outs q = Some o ->
      meshed (g_nSpecie cfg) n r -> shapeM (g_nSpecie cfg) n (o_state o).
Proof. exact @shape_out. Qed.
Print Assumptions C22_shapes_kept.

(** Rates, chemical time steps and labels of rank 0: rate = (Y/2 - Y)*2/1 = -Y, for the
    mapped cell 4 that of cell 3; the chemical time steps are the temperatures, capped
    by 6. *)
Example C22_case :
  exists on,
    solve_all (ex_kern QAD) 9 (ex_cfg QAD true true true) true true isort (ex_tms QAD) (ex_ranks QAD) = Ok on /\
    Forall2 (Forall2 (Forall2 Qeq)) (map (fun o => m_RR (o_state o)) on) [[[-1; -1; -1; -(1 # 4); -(1 # 4); -(1 # 4)]]; [[-1]]]%Q /\
    map (fun o => m_dtc (o_state o)) on = [[5; 4; 6; 1; 1; 6]; [3]]%Q /\
    map (fun o => m_ref (o_state o)) on = [[2; 2; 2; 0; 1; 2]; [2]].
Proof.
  apply by_run. vm_compute. split; [repeat constructor|]. split; reflexivity.
Qed.

(** ** C23: inactive mapping *)
Theorem C23_inactive_mapping :
  forall (A : Arith) (H : Type) (kern : H -> kcell A -> outcome (kcell A * H)) fuel cfg n F d m,
    shapeF (g_nSpecie cfg) n F d -> shapeM (g_nSpecie cfg) n m ->
    mapper_ok (g_nSpecie cfg) (g_mapper cfg) ->
    forall dbg tm e, mp_active (g_mapper cfg) = false ->
    exists ps m', getProblems kern fuel cfg dbg tm e F d m = Ok (ps, m', e) /\
      map p_cellid ps = seq 0 n /\ m_RR m' = m_RR m /\ m_dtc m' = m_dtc m /\ m_cpu m' = m_cpu m /\
      m_ref m' = repeat 2 n.
Proof. exact @get_inactive. Qed.
Print Assumptions C23_inactive_mapping.

Example C23_case :
  exists on,
    solve_all (ex_kern QAD) 9 (ex_cfg QAD true true false) true true isort (ex_tms QAD) (ex_ranks QAD) = Ok on /\
    map (fun o => m_ref (o_state o)) on = [[2; 2; 2; 2; 2; 2]; [2]].
Proof. eexists. split; [vm_compute; reflexivity|reflexivity]. Qed.

(** ** C24: solve(deltaT) at most doubles the time step *)
Theorem C24_at_most_doubled :
  forall (A : Arith) (H : Type) (kern : H -> kcell A -> outcome (kcell A * H)) fuel cfg dbg par
         sortf tms dt ranks outs o,
    solve_scalar kern fuel cfg dbg par sortf tms dt ranks = Ok outs -> In o outs ->
    o_dtmin o = nmul A (lit A 2) dt \/ nltb A (o_dtmin o) (nmul A (lit A 2) dt) = true.
Proof. exact @doubled_lemma. Qed.
Print Assumptions C24_at_most_doubled.

(** Otherwise it is the field solve with a uniform time step: same fields, and the value
    of the field solve when that is smaller. *)
Theorem C24_otherwise_field_solve :
  forall (A : Arith) (H : Type) (kern : H -> kcell A -> outcome (kcell A * H)) fuel cfg dbg par
         sortf tms dt ranks outs,
    solve_scalar kern fuel cfg dbg par sortf tms dt ranks = Ok outs ->
    exists fouts,
      solve_all kern fuel cfg dbg par sortf tms
        (map (fun r => mkIn (r_fields r) (DUniform dt) (r_state r) (r_env r)) ranks) = Ok fouts /\
      Forall2 (fun f o => o_state o = o_state f /\ o_env o = o_env f /\
        (nltb A (o_dtmin f) (nmul A (lit A 2) dt) = true -> o_dtmin o = o_dtmin f)) fouts outs.
Proof. exact @field_solve_lemma. Qed.
Print Assumptions C24_otherwise_field_solve.

Example C24_case :
  exists o1 o2,
    solve_scalar (ex_kern QAD) 9 (ex_cfg QAD true true true) true true isort (ex_tms QAD) 2%Q (ex_ranks QAD) = Ok [o1; o2] /\
    (o_dtmin o1 == 4)%Q /\ (o_dtmin o2 == 3)%Q.
Proof. apply by_run2. vm_compute. split; reflexivity. Qed.

(** ** C25: the returned time step is the minimum over the individually solved cells *)

(** Every arithmetic: it is [great] or the stored value of a cell labelled 2. *)
Theorem C25_attained :
  forall (A : Arith) (H : Type) (kern : H -> kcell A -> outcome (kcell A * H)) fuel cfg dbg par
         sortf tms ranks outs,
    g_chem cfg = true -> mapper_ok (g_nSpecie cfg) (g_mapper cfg) -> sort_contract sortf ->
    par = true \/ length ranks <= 1 ->
    solve_all kern fuel cfg dbg par sortf tms ranks = Ok outs ->
    forall q r o n, nth_error ranks q = Some r -> nth_error outs q = Some o ->
      meshed (g_nSpecie cfg) n r ->
      o_dtmin o = great A \/
      exists i, i < n /\ nth_error (m_ref (o_state o)) i = Some 2 /\
        nth_error (m_dtc (o_state o)) i = Some (o_dtmin o).
Proof. exact @dtmin_attained. Qed.
Print Assumptions C25_attained.

(** Exact arithmetic: it is a lower bound of [great] and of the values of these cells. *)
Theorem C25_lower_bound :
  forall sm gr vg (H : Type) (kern : H -> kcell (QA sm gr vg) -> outcome (kcell (QA sm gr vg) * H))
         fuel cfg dbg par sortf tms ranks outs q r o n i (x : Q),
    g_chem cfg = true -> mapper_ok (g_nSpecie cfg) (g_mapper cfg) -> sort_contract sortf ->
    par = true \/ length ranks <= 1 ->
    solve_all kern fuel cfg dbg par sortf tms ranks = Ok outs ->
    nth_error ranks q = Some r -> nth_error outs q = Some o -> meshed (g_nSpecie cfg) n r ->
    (o_dtmin o <= gr)%Q /\
    (i < n -> nth_error (m_ref (o_state o)) i = Some 2 ->
     nth_error (m_dtc (o_state o)) i = Some x -> (o_dtmin o <= x)%Q).
Proof. exact dtmin_lower. Qed.
Print Assumptions C25_lower_bound.

(** Rank 0 of [C22_case] returns 4 although the reference cell has 1 (see C26). *)
Example C25_case :
  exists o1 o2,
    solve_all (ex_kern QAD) 9 (ex_cfg QAD true true true) true true isort (ex_tms QAD) (ex_ranks QAD) = Ok [o1; o2] /\
    o_dtmin o1 = 4%Q /\ o_dtmin o2 = 3%Q.
Proof. apply by_run2. vm_compute. split; reflexivity. Qed.

(** ** C26: the returned time step does not cover mapped cells *)
Theorem C26_lower_bound_refuted :
  exists (cfg : config QAD) kern ranks outs q r o n i x,
    g_chem cfg = true /\ mapper_ok (g_nSpecie cfg) (g_mapper cfg) /\
    memoryless kern /\ whole_step kern (g_nSpecie cfg) /\
    solve_all (H := nat) kern 1 cfg true true isort (fun _ _ => one QAD) ranks = Ok outs /\
    nth_error ranks q = Some r /\ nth_error outs q = Some o /\ meshed (g_nSpecie cfg) n r /\
    i < n /\ nth_error (m_dtc (o_state o)) i = Some x /\ (x < o_dtmin o)%Q.
Proof. exact uncovered_witness. Qed.
Print Assumptions C26_lower_bound_refuted.

(** Without mapping it does (concrete case: [C23_case]). *)
Theorem C26_without_mapping :
  forall sm gr vg (H : Type) (kern : H -> kcell (QA sm gr vg) -> outcome (kcell (QA sm gr vg) * H))
         fuel cfg dbg par sortf tms ranks outs q r o n i (x : Q),
    g_chem cfg = true -> mp_active (g_mapper cfg) = false -> sort_contract sortf ->
    par = true \/ length ranks <= 1 ->
    solve_all kern fuel cfg dbg par sortf tms ranks = Ok outs ->
    nth_error ranks q = Some r -> nth_error outs q = Some o -> meshed (g_nSpecie cfg) n r ->
    i < n -> nth_error (m_dtc (o_state o)) i = Some x -> (o_dtmin o <= x)%Q.
Proof. exact dtmin_unmapped. Qed.
Print Assumptions C26_without_mapping.

(** ** C27: the chemical time step is capped (cells 2 and 5 in [C22_case]) *)
Theorem C27_capped :
  forall (A : Arith) (H : Type) (kern : H -> kcell A -> outcome (kcell A * H)) fuel cfg dbg par
         sortf tms ranks outs,
    g_chem cfg = true -> mapper_ok (g_nSpecie cfg) (g_mapper cfg) -> sort_contract sortf ->
    par = true \/ length ranks <= 1 ->
    solve_all kern fuel cfg dbg par sortf tms ranks = Ok outs ->
    forall q r o n, nth_error ranks q = Some r -> nth_error outs q = Some o ->
      meshed (g_nSpecie cfg) n r ->
      forall i, i < n ->
      exists x, nth_error (m_dtc (o_state o)) i = Some x /\
        (x = g_dtcMax cfg \/ nltb A x (g_dtcMax cfg) = true).
Proof. exact @capped. Qed.
Print Assumptions C27_capped.

(** ** C28: the stored rate *)

(** The cell solver is run over the cell's time step starting from its old mass fractions
    [Y0]; with [Y1] the final ones the rate is (Y1-Y0)*rho/dt.  Concrete case: [C22_case]. *)
Theorem C28_rate :
  forall (A : Arith) (H : Type) (kern : H -> kcell A -> outcome (kcell A * H)) fuel cfg dbg par
         sortf tms ranks outs,
    g_chem cfg = true -> mapper_ok (g_nSpecie cfg) (g_mapper cfg) -> sort_contract sortf ->
    par = true \/ length ranks <= 1 ->
    solve_all kern fuel cfg dbg par sortf tms ranks = Ok outs ->
    forall q r o n, nth_error ranks q = Some r -> nth_error outs q = Some o ->
      meshed (g_nSpecie cfg) n r ->
      forall i, i < n -> (forall i0, ~ mapped (g_mapper cfg) (r_fields r) i0 i) ->
      exists Y0 T p rho dt sub h l x h',
        map (fun y => nth_error y i) (f_Y (r_fields r)) = map Some Y0 /\
        nth_error (f_T (r_fields r)) i = Some T /\ nth_error (f_p (r_fields r)) i = Some p /\
        nth_error (f_rho (r_fields r)) i = Some rho /\
        match r_dt r with DField l => nth_error l i | DUniform y => Some y end = Some dt /\
        nth_error (m_dtc (r_state r)) i = Some sub /\
        calls kern h dt (mkCell p T Y0 dt sub) l x h' /\ length (k_c x) = length Y0 /\
        map (fun row => nth_error row i) (m_RR (o_state o)) =
          map (fun '(y1, y0) => Some (ndiv A (nmul A (nsub A y1 y0) rho) dt)) (combine (k_c x) Y0) /\
        nth_error (m_dtc (o_state o)) i = Some (foam_min A (k_sub x) (g_dtcMax cfg)).
Proof. exact @rate_lemma. Qed.
Print Assumptions C28_rate.

(** ** C29: chemistry off *)
Theorem C29_chemistry_off :
  forall (A : Arith) (H : Type) (kern : H -> kcell A -> outcome (kcell A * H)) fuel cfg dbg par
         sortf tms ranks,
    g_chem cfg = false ->
    exists outs, solve_all kern fuel cfg dbg par sortf tms ranks = Ok outs /\
      Forall2 (fun r o => o_dtmin o = great A /\ o_state o = r_state r /\ o_env o = r_env r) ranks outs.
Proof. exact @off_lemma. Qed.
Print Assumptions C29_chemistry_off.

(** ** C30: sub-stepping *)

(** Exact arithmetic: what the calls consume adds up to the time step, up to [small], and
    never to more if no call consumes more than it was asked for. *)
Theorem C30_covers :
  forall sm gr vg (H : Type) (kern : H -> kcell (QA sm gr vg) -> outcome (kcell (QA sm gr vg) * H))
         h t x l x' h',
    calls kern h t x l x' h' ->
    (t - fold_right Qplus 0 l <= sm)%Q /\
    ((forall h x x1 h1, kern h x = Ok (x1, h1) -> (k_dt x1 <= k_dt x)%Q) -> (0 <= t)%Q ->
     (fold_right Qplus 0 l <= t)%Q).
Proof. exact covers_lemma. Qed.
Print Assumptions C30_covers.

(** [calls] is what the loop does. *)
Theorem C30_loop :
  forall (A : Arith) (H : Type) (kern : H -> kcell A -> outcome (kcell A * H)) fuel h t x x' h',
    substeps kern fuel h t x = Ok (x', h') -> exists l, calls kern h t x l x' h' /\ length l <= fuel.
Proof. exact @loop_lemma. Qed.
Print Assumptions C30_loop.

(** A solver that always consumes the whole step is called once (not at all when the step
    is not above [small]). *)
Theorem C30_one_call :
  forall (A : Arith) (H : Type) (kern : H -> kcell A -> outcome (kcell A * H)) h t x l x' h',
    (forall s, nltb A (small A) s = true -> nltb A (small A) (nsub A s s) = false) ->
    (forall h x x1 h1, kern h x = Ok (x1, h1) -> k_dt x1 = k_dt x) ->
    calls kern h t x l x' h' ->
    l = if nltb A (small A) t then [t] else [].
Proof. exact @calls_whole. Qed.
Print Assumptions C30_one_call.

(** The loop ends if every call consumes at least some [delta] > 0 ... *)
Theorem C30_ends :
  forall sm gr vg (H : Type) (kern : H -> kcell (QA sm gr vg) -> outcome (kcell (QA sm gr vg) * H))
         (delta : Q),
    (0 <= sm)%Q -> (0 < delta)%Q ->
    (forall h x, exists x' h', kern h x = Ok (x', h') /\ (delta <= k_dt x')%Q) ->
    forall n h (t : Q) x, (t <= inject_Z (Z.of_nat n) * delta)%Q ->
      exists x' h', substeps kern n h t x = Ok (x', h').
Proof. exact @substeps_ends. Qed.
Print Assumptions C30_ends.

(** ... and never when the calls consume nothing. *)
Theorem C30_no_progress :
  forall sm gr vg (H : Type) (kern : H -> kcell (QA sm gr vg) -> outcome (kcell (QA sm gr vg) * H)),
    (forall h x, exists x' h', kern h x = Ok (x', h') /\ (k_dt x' == 0)%Q) ->
    forall n h (t : Q) x, (sm < t)%Q -> substeps kern n h t x = Diverge.
Proof. exact no_progress_lemma. Qed.
Print Assumptions C30_no_progress.

(** A solver that consumes at most 1/2 per call. *)
Definition ex_kern_half (h : nat) (x : kcell QAD) : outcome (kcell QAD * nat) :=
  Ok (mkCell (A := QAD) (k_p x) (k_T x) (k_c x) (foam_min QAD (1 # 2)%Q (k_dt x)) (k_T x), S h).

Example C30_case :
  exists x, substeps ex_kern_half 9 0 (5 # 4)%Q (mkCell (A := QAD) 1 1 [1] 1 1)%Q = Ok (x, 3).
Proof. eexists. vm_compute. reflexivity. Qed.

(** The first hypothesis of [C30_one_call] holds in IEEE doubles. *)
Theorem C30_ieee_self_difference :
  forall t : num F64, nltb F64 (small F64) (nsub F64 t t) = false.
Proof. exact f64_self. Qed.
Print Assumptions C30_ieee_self_difference.

(** ** C52: a serial run stays local *)
Theorem C52_serial_plan :
  forall (A : Arith) dbg sortf (ps : list (problem A)) sts,
    sort_contract sortf -> updateState dbg sortf [ps] = Ok sts ->
    sts = [mkState [] [] [] (Z.of_nat (length ps))].
Proof. exact @serial_plan_lemma. Qed.
Print Assumptions C52_serial_plan.

(** For any cell solver and every outcome, with or without MPI. *)
Theorem C52_serial_solve :
  forall (A : Arith) (H : Type) (kern : H -> kcell A -> outcome (kcell A * H)) fuel cfg dbg par sortf tms
         (ranks : list (rankin A H)),
    sort_contract sortf -> length ranks <= 1 ->
    (forall ps : list (problem A), exists sts, updateState dbg sortf [ps] = Ok sts) ->
    solve_all kern fuel (with_active cfg true) dbg par sortf tms ranks =
    solve_all kern fuel (with_active cfg false) dbg par sortf tms ranks.
Proof. exact @serial_solve. Qed.
Print Assumptions C52_serial_solve.

(** The plan of one rank exists in IEEE doubles, whatever the measured times. *)
Theorem C52_ieee_plan :
  forall sortf (ps : list (problem F64)), sort_contract sortf ->
    exists sts, updateState false sortf [ps] = Ok sts.
Proof. exact (fun sortf ps Hs => plan_single sortf ps f64_irrefl Hs). Qed.
Print Assumptions C52_ieee_plan.

Example C52_case :
  exists on, solve_all (ex_kern QAD) 9 (ex_cfg QAD true true true) true false isort (ex_tms QAD)
               (firstn 1 (ex_ranks QAD)) = Ok on /\ map (fun o => m_ref (o_state o)) on = [[2; 2; 2; 0; 1; 2]].
Proof. eexists. split; [vm_compute; reflexivity|reflexivity]. Qed.
